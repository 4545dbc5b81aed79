(** The formal parameters. *)

From Coq Require Import ZArith Bool List Lia Arith.
From Verif Require Import Words ExprModel DeclModel DeclFrame DeclTypes DeclSpec DeclVars.
Import ListNotations.
Open Scope Z_scope.

Definition is_var (s : sym) : Prop := exists v, sParm s = PVar v.

(** The symbols [m] are added to the table, all of them parameters. *)
Definition added (l : list sym) (byref : bool) (s : sym) : Prop :=
  exists v, sParm s = PVar v /\
  if byref then sKind s = sVAR_PARM /\ vSize v = 2
  else exists p ts t, vPar v = Some p /\ nth_error l p = Some ts /\ sParm ts = PType t /\
         sKind s = tType t /\ vSize v = u32 (s32 (tSize t)).

Lemma added_more l m b s : added l b s -> added (l ++ m) b s.
Proof.
  intros (v & h1 & h2). exists v. split; [exact h1|]. destruct b; [exact h2|].
  destruct h2 as (p & ts & t & a & b' & c). exists p, ts, t. split; [exact a|]. split; [|exact c].
  rewrite nth_error_app1; [exact b'|]. apply nth_error_Some. congruence.
Qed.

Lemma upd_last (f : sym -> sym) l s m :
  firstn (length l) (l ++ s :: m) ++ match skipn (length l) (l ++ s :: m) with [] => [] | x :: r => f x :: r end = l ++ f s :: m.
Proof.
  rewrite firstn_app, Nat.sub_diag, firstn_all, skipn_app, Nat.sub_diag, skipn_all. cbn.
  rewrite app_nil_r. reflexivity.
Qed.

(** The type of the parameters declared last *)
Definition sized (byref : bool) (tp : option nat) (d : ds) : Prop :=
  match tp with
  | None => True
  | Some p => exists s t, nth_error (syms d) p = Some s /\ sParm s = PType t /\
                          gVarSize d = if byref then 2 else s32 (tSize t)
  end.

Lemma tid_quiet d p d' : type_identifier d = Done p d' -> syms d' = syms d /\ gParms d' = gParms d.
Proof.
  unfold type_identifier, bind, token. destruct (_ =? sTYPE); [|intros E; inversion E; auto].
  cbn [tkn_ptr]. destruct (gPtr d) as [q|]; [|discriminate]. unfold getToken.
  assert (Hp : gParms (next_from 0 d) = gParms d).
  { unfold next_from. destruct (rest d) as [|[c|v|v|n] r]; try reflexivity.
    destruct (find_sym _ _ _ _ _); [|reflexivity]. destruct (nth_error _ _); reflexivity. }
  destruct (get_type q (next_from 0 d)) as [t d1| | | |] eqn:E1; try discriminate.
  apply get_type_same in E1. subst d1. unfold set_var_size.
  destruct (_ =? sSTRING).
  - destruct (_ =? tLBRACK); [discriminate|]. intros E. inversion E; subst. cbn. rewrite next_syms. auto.
  - intros E. inversion E; subst. cbn. rewrite next_syms. auto.
Qed.
Lemma next_parms st d : gParms (next_from st d) = gParms d.
Proof.
  unfold next_from. destruct (rest d) as [|[c|v|v|n] r]; try reflexivity.
  destruct (find_sym _ _ _ _ _); [|reflexivity]. destruct (nth_error _ _); reflexivity.
Qed.
Lemma expect_quiet t e d d' : expect t e d = Done tt d' -> syms d' = syms d /\ gParms d' = gParms d.
Proof.
  unfold expect, bind, token. destruct (_ =? _); intros E; inversion E; subst.
  - split; [apply next_syms|apply next_parms].
  - auto.
Qed.

(** The type of one section *)
Lemma section_type byref d1 tp d5 :
  (expect tCOLON eCOLON;; p <- type_identifier;; match p with None => error eINVTYPE;; ret p | Some _ => ret p end) d1 = Done tp d5 ->
  syms d5 = syms d1 /\ gParms d5 = gParms d1 /\
  match tp with
  | None => True
  | Some p => exists s t, nth_error (syms d5) p = Some s /\ sParm s = PType t /\ (byref = false -> gVarSize d5 = s32 (tSize t))
  end.
Proof.
  unfold bind at 1. destruct (expect _ _ d1) as [[] d2| | | |] eqn:E1; try discriminate.
  apply expect_quiet in E1. destruct E1 as [a1 a2].
  unfold bind at 1. destruct (type_identifier d2) as [[p|] d3| | | |] eqn:E2; try discriminate.
  - intros E. inversion E; subst. pose proof (tid_quiet _ _ _ E2) as [b1 b2].
    apply tid_size in E2. destruct E2 as (s & t & h1 & h2 & h3).
    split; [congruence|]. split; [congruence|]. exists s, t. auto.
  - unfold bind, error, ret. intros E. inversion E; subst. pose proof (tid_quiet _ _ _ E2) as [b1 b2].
    cbn. split; [congruence|]. split; [congruence|exact I].
Qed.

Lemma declare_parameter_adds byref : forall k d tp d', declare_parameter k byref d = Done tp d' ->
  exists m, syms d' = syms d ++ m /\ gParms d' = gParms d + Z.of_nat (length m) /\
    Forall (added (syms d') byref) m /\
    match tp with
    | None => True
    | Some p => exists s t, nth_error (syms d') p = Some s /\ sParm s = PType t /\ (byref = false -> gVarSize d' = s32 (tSize t))
    end.
Proof.
  induction k as [|k IH]; intros d tp d' E; cbn [declare_parameter] in E; [discriminate|].
  unfold bind at 1, token in E. destruct (negb _).
  { unfold bind, error, not_modelled in E. discriminate. }
  unfold bind at 1, tkn_str in E. unfold bind at 1, add_variable, add_sym in E.
  set (vp := length (syms d)) in E. set (s0 := mkS _ _ _) in E.
  unfold bind at 1, getToken in E. set (d1 := next_from 0 _) in E.
  assert (S1 : syms d1 = syms d ++ [s0]) by (unfold d1; rewrite next_syms; reflexivity).
  assert (P1 : gParms d1 = gParms d) by (unfold d1; rewrite next_parms; reflexivity).
  unfold bind at 1 in E. cbn [token] in E. unfold bind at 1 in E.
  match type of E with match ?m d1 with _ => _ end = _ => destruct (m d1) as [tp1 d5| | | |] eqn:E1 end; try discriminate.
  assert (H : exists m, syms d5 = syms d1 ++ m /\ gParms d5 = gParms d1 + Z.of_nat (length m) /\
    Forall (added (syms d5) byref) m /\
    match tp1 with
    | None => True
    | Some p => exists s t, nth_error (syms d5) p = Some s /\ sParm s = PType t /\ (byref = false -> gVarSize d5 = s32 (tSize t))
    end).
  { destruct (gTok d1 =? tCOMMA).
    - unfold bind at 1, getLevelToken in E1. apply IH in E1.
      destruct E1 as (m & h1 & h2 & h3). exists m. rewrite next_syms in h1. rewrite next_parms in h2. auto.
    - apply section_type with (byref := byref) in E1. destruct E1 as (h1 & h2 & h3). exists [].
      rewrite app_nil_r. cbn. rewrite Z.add_0_r. auto. }
  destruct H as (m & h1 & h2 & h3 & h4). clear E1.
  unfold bind at 1 in E.
  match type of E with match ?m d5 with _ => _ end = _ => destruct (m d5) as [kd d6| | | |] eqn:E6 end; try discriminate.
  assert (H6 : syms d6 = syms d5 /\ gParms d6 = gParms d5 /\ tp = tp1 /\
    if byref then kd = sVAR_PARM /\ gVarSize d6 = 2
    else gVarSize d6 = gVarSize d5 /\ exists p s t, tp1 = Some p /\ nth_error (syms d5) p = Some s /\ sParm s = PType t /\ kd = tType t).
  { assert (tp = tp1) as ->.
    { clear -E. unfold bind, nparms, set_nparms, var_size, upd_var, upd, ret in E. inversion E. reflexivity. }
    destruct byref.
    - unfold bind, set_var_size, ret in E6. inversion E6; subst. cbn. auto.
    - destruct tp1 as [p|]; [|discriminate]. unfold bind, get_type, bind, get_sym in E6.
      destruct (nth_error (syms d5) p) as [s|] eqn:N; [|discriminate].
      destruct (sParm s) as [t| | | |] eqn:Es; try discriminate. inversion E6; subst.
      repeat match goal with |- _ /\ _ => split end; auto. exists p, s, t. auto. }
  destruct H6 as (e1 & e2 & -> & H6).
  unfold bind at 1, nparms in E. unfold bind at 1, set_nparms in E. unfold bind at 1, var_size in E.
  unfold bind, upd_var, upd, ret in E. inversion E; subst d'. clear E. cbn [syms set_syms gParms gVarSize] in *.
  rewrite e1, h1, S1, <- app_assoc. cbn [app]. unfold vp. rewrite upd_last. cbn [sParm s0].
  set (s1 := mkS _ _ _).
  exists (s1 :: m). split; [reflexivity|]. split; [cbn [length]; lia|].
  assert (X : forall q x, nth_error (syms d5) q = Some x -> (forall v, sParm x <> PVar v) ->
    nth_error (syms d ++ s1 :: m) q = Some x).
  { intros q x N nv. rewrite h1, S1, <- app_assoc in N. cbn in N.
    destruct (Nat.eq_dec q (length (syms d))) as [->|ne].
    - rewrite nth_error_app2, Nat.sub_diag in N by lia. cbn in N. inversion N; subst x. exfalso. eapply nv. reflexivity.
    - destruct (Nat.lt_ge_cases q (length (syms d))).
      + rewrite nth_error_app1 in N |- * by lia. exact N.
      + rewrite nth_error_app2 in N |- * by lia. destruct (q - length (syms d))%nat eqn:Q; [lia|]. exact N. }
  assert (Y : forall s, added (syms d5) byref s -> added (syms d ++ s1 :: m) byref s).
  { intros s (v & a1 & a2). exists v. split; [exact a1|]. destruct byref; [exact a2|].
    destruct a2 as (p & ts & t & b1 & b2 & b3 & b4). exists p, ts, t. split; [exact b1|].
    split; [|auto]. apply X; [exact b2|]. intros v'. congruence. }
  split; [constructor; [|eapply Forall_impl; [|exact h3]; exact Y]|].
  - exists (mkVar 0 (u32 (gVarSize d6)) tp1). split; [reflexivity|]. cbn. destruct byref.
    + destruct H6 as [-> ->]. auto.
    + destruct H6 as (g & p & s & t & -> & N & Es & ->). exists p, s, t.
      split; [reflexivity|]. split; [apply X; [exact N|intros v; congruence]|]. split; [exact Es|]. split; [reflexivity|].
      destruct h4 as (s' & t' & N' & Es' & hs). assert (t' = t) by congruence. subst t'. rewrite g, (hs eq_refl). reflexivity.
  - destruct tp1 as [p|]; [|exact I]. destruct h4 as (s & t & N & Es & hs). exists s, t.
    split; [apply X; [exact N|intros v; congruence]|]. split; [exact Es|]. intros b. subst byref.
    destruct H6 as (g & _). rewrite g. exact (hs eq_refl).
Qed.

Definition added_some (l : list sym) (s : sym) : Prop := exists b, added l b s.
Lemma sections_add n : forall k d d', parameter_sections k n d = Done tt d' ->
  exists m, syms d' = syms d ++ m /\ gParms d' = gParms d + Z.of_nat (length m) /\
    Forall (added_some (syms d')) m.
Proof.
  induction k as [|k IH]; intros d d' E; cbn [parameter_sections] in E; [discriminate|].
  unfold bind at 1, getLevelToken in E. set (d1 := next_from _ d) in E.
  assert (S1 : syms d1 = syms d) by apply next_syms. assert (P1 : gParms d1 = gParms d) by apply next_parms.
  unfold bind at 1 in E. cbn [token] in E. unfold bind at 1 in E.
  match type of E with match ?m d1 with _ => _ end = _ => destruct (m d1) as [byref d2| | | |] eqn:E1 end; try discriminate.
  assert (H2 : syms d2 = syms d /\ gParms d2 = gParms d).
  { destruct (_ =? tVAR); unfold bind, getLevelToken, ret in E1; inversion E1; subst.
    - rewrite next_syms, next_parms. auto.
    - auto. }
  unfold bind at 1 in E. destruct (declare_parameter n byref d2) as [tp d3| | | |] eqn:E3; try discriminate.
  apply declare_parameter_adds in E3. destruct E3 as (m & h1 & h2 & h3 & _).
  destruct H2 as [a1 a2].
  unfold bind, token in E. destruct (_ =? tSEMI).
  - apply IH in E. destruct E as (m' & k1 & k2 & k3). exists (m ++ m').
    split; [rewrite k1, h1, a1, app_assoc; reflexivity|]. rewrite app_length. split; [lia|].
    apply Forall_app. split; [|exact k3]. eapply Forall_impl; [|exact h3]. intros s h. exists byref.
    rewrite k1. apply added_more. exact h.
  - inversion E; subst. exists m. split; [congruence|]. split; [lia|].
    eapply Forall_impl; [|exact h3]. intros s h. exists byref. exact h.
Qed.

(** ** The offsets *)

Definition moved (l l' : list sym) : Prop :=
  Forall2 (fun s s' => exists v o, sParm s = PVar v /\ s' = mkS (sName s) (sKind s) (PVar (mkVar o (vSize v) (vPar v)))) l l'.

Fixpoint stacked (a : Z) (l : list sym) (b : Z) : Prop :=
  match l with
  | [] => a = b
  | s :: r => start s = a /\ stacked (a + words_of s) r b
  end.

Lemma words_extent s : 0 <= extent s -> extent s <= words_of s <= extent s + 1.
Proof. intros H. unfold words_of. pose proof (Z.div_mod (extent s + 1) 2). pose proof (Z.mod_pos_bound (extent s + 1) 2). lia. Qed.

Lemma s16_small x : -32768 <= x < 32768 -> s16 x = x.
Proof.
  intros H. unfold s16, u16. cbv zeta. destruct (Z.ltb_spec (x mod 65536) 32768).
  - pose proof (Z.div_mod x 65536). pose proof (Z.mod_pos_bound x 65536).
    assert (x / 65536 = 0 \/ x / 65536 = -1) by lia. lia.
  - pose proof (Z.div_mod x 65536). pose proof (Z.mod_pos_bound x 65536).
    assert (x / 65536 = 0 \/ x / 65536 = -1) by lia. lia.
Qed.

Lemma stacked_snoc l : forall a b s, stacked a l b -> start s = b -> stacked a (l ++ [s]) (b + words_of s).
Proof.
  induction l as [|x l IH]; intros a b s H Hs; cbn in *.
  - split; [congruence|]. cbn. lia.
  - destruct H as [h1 h2]. split; [exact h1|]. apply IH; assumption.
Qed.
Lemma stacked_app l : forall m a b c, stacked a l b -> stacked b m c -> stacked a (l ++ m) c.
Proof.
  induction l as [|x l IH]; intros m a b c H K; cbn in *; [congruence|].
  destruct H as [h1 h2]. split; [exact h1|]. eapply IH; eauto.
Qed.
Lemma total_app l m : total (l ++ m) = total l + total m.
Proof. induction l as [|x l IH]; [reflexivity|]. cbn [app total]. rewrite IH. lia. Qed.
Lemma total_nonneg l : Forall (fun s => 0 <= extent s) l -> 0 <= total l.
Proof. induction 1 as [|s l h _ IH]; cbn [total]; [lia|]. pose proof (words_extent s h). lia. Qed.

Lemma offsets_run base : forall l m off d r d',
  syms d = base ++ l ++ m -> Forall is_var l -> Forall (fun s => 0 <= extent s) l ->
  off <= 0 -> off - total l >= -32768 ->
  parameter_offsets (length l) (length base - 1) off d = Done r d' -> (0 < length base)%nat ->
  r = off - total l /\ exists l', syms d' = base ++ l' ++ m /\ moved l l' /\ stacked r l' off.
Proof.
  induction l as [|s l IH] using rev_ind; intros m off d r d' Sy V P O B E Hb.
  - cbn in E. inversion E; subst. cbn. split; [lia|]. exists []. repeat split; auto. constructor.
  - rewrite app_length, Nat.add_1_r in E. cbn [parameter_offsets] in E.
    apply Forall_app in V. destruct V as [V Vs]. inversion Vs as [|? ? Hs _]; subst. destruct Hs as [v Hv].
    apply Forall_app in P. destruct P as [P Ps]. inversion Ps as [|? ? Hp _]; subst.
    unfold bind at 1, get_sym in E.
    assert (ix : (length base - 1 + S (length l) = length (base ++ l))%nat) by (rewrite app_length; lia).
    rewrite ix in E.
    assert (N : nth_error (syms d) (length (base ++ l)) = Some s).
    { rewrite Sy, <- !app_assoc, app_assoc, nth_error_app2, Nat.sub_diag by lia. reflexivity. }
    rewrite N in E. rewrite Hv in E. cbv zeta in E.
    rewrite total_app in B. cbn [total] in B. rewrite Z.add_0_r in B.
    assert (W : words_of s = INT_ALIGNUP (vSize v)).
    { unfold words_of, extent, INT_ALIGNUP. rewrite Hv. lia. }
    pose proof (total_nonneg l P) as tl. pose proof (words_extent s Hp) as ws.
    rewrite <- W, s16_small in E by lia.
    unfold bind at 1, upd_var, upd in E. rewrite Sy in E.
    replace (base ++ (l ++ [s]) ++ m) with ((base ++ l) ++ s :: m) in E by (rewrite <- !app_assoc; reflexivity).
    rewrite upd_last in E. rewrite Hv in E.
    match type of E with parameter_offsets _ _ _ (set_syms (_ ++ ?x :: _) _) = _ => set (s' := x) in E end.
    apply (IH (s' :: m)) in E; auto; try lia.
    + destruct E as [-> (l' & h1 & h2 & h3)]. rewrite total_app. cbn [total]. rewrite Z.add_0_r.
      split; [lia|]. exists (l' ++ [s']). split; [rewrite h1, <- !app_assoc; reflexivity|].
      assert (We : words_of s' = words_of s).
      { unfold words_of, extent. rewrite Hv. reflexivity. }
      split.
      * apply Forall2_app; [exact h2|]. constructor; [|constructor]. exists v, (off - words_of s). auto.
      * pose proof (stacked_snoc _ _ _ s' h3 eq_refl) as h4. rewrite We in h4.
        replace (off - words_of s + words_of s) with off in h4 by lia. exact h4.
    + cbn. rewrite <- !app_assoc. reflexivity.
Qed.

Lemma stacked_laid l : forall a b, Forall (fun s => 0 <= extent s) l -> stacked a l b ->
  exists b', laid a l b' /\ b' <= b.
Proof.
  induction l as [|s l IH]; intros a b P H; cbn [stacked laid] in *.
  - exists a. split; [reflexivity|lia].
  - destruct H as [h1 h2]. inversion P; subst. destruct (IH _ _ H2 h2) as (b' & k1 & k2).
    pose proof (words_extent s H1). 
    destruct l as [|s2 l2].
    + cbn [stacked laid] in *. subst. exists (start s + extent s). repeat split; try lia.
    + exists b'. split; [|exact k2]. split; [lia|]. split; [lia|].
      eapply laid_weak; [exact k1| |left; discriminate]. lia.
Qed.
Lemma stacked_even l : forall a b, Z.even a = true -> stacked a l b -> Forall (fun s => Z.even (start s) = true) l.
Proof.
  induction l as [|s l IH]; intros a b E H; [constructor|]. cbn [stacked] in H. destruct H as [h1 h2].
  constructor; [congruence|]. eapply IH; [|exact h2].
  unfold words_of. rewrite Z.even_add, Z.even_mul, E. reflexivity.
Qed.
Lemma total_even l : Z.even (total l) = true.
Proof. induction l as [|s l IH]; [reflexivity|]. cbn [total]. unfold words_of. rewrite Z.even_add, Z.even_mul, IH. reflexivity. Qed.

Lemma nth_moved base l l' p s : nth_error (base ++ l) p = Some s -> (forall v, sParm s <> PVar v) -> moved l l' ->
  nth_error (base ++ l') p = Some s.
Proof.
  intros N nv H. destruct (Nat.lt_ge_cases p (length base)).
  - rewrite nth_error_app1 in N |- * by lia. exact N.
  - rewrite nth_error_app2 in N |- * by lia. revert N. generalize (p - length base)%nat. clear -nv H.
    induction H as [|a b l l' (v & o & h & _) _ IH]; intros [|n] N; cbn in *; try discriminate.
    + inversion N; subst. exfalso. exact (nv v h).
    + apply IH. exact N.
Qed.

(** Only the offsets change. *)
Lemma offsets_keep (base : list sym) : forall i off dd r dd',
  parameter_offsets i (length base - 1) off dd = Done r dd' ->
  forall l, syms dd = base ++ l -> Forall is_var l -> (i <= length l)%nat -> (0 < length base)%nat ->
  exists l', syms dd' = base ++ l' /\ moved l l'.
Proof.
  induction i as [|i IH]; intros off0 dd r dd' E0 l1 S1 V1 Hi Hb; cbn [parameter_offsets] in E0.
      - inversion E0; subst. exists l1. split; [exact S1|]. clear -V1. induction V1 as [|s l [v h] _ IH]; constructor; auto.
        exists v, (vOff v). split; [exact h|]. destruct s, v; cbn in *; subst; reflexivity.
      - unfold bind at 1, get_sym in E0. destruct (nth_error (syms dd) _) as [s|] eqn:N; [|discriminate].
        destruct (sParm s) as [| | |v|] eqn:Es; try discriminate. cbv zeta in E0.
        unfold bind at 1, upd_var, upd in E0.
        set (q := (length base - 1 + S i)%nat) in *.
        destruct (Nat.lt_ge_cases q (length base)) as [lt|ge].
        { (* only when the table is empty *)
          unfold q in lt. lia. }
        assert (exists a b, l1 = a ++ s :: b /\ length a = (q - length base)%nat) as (a & b & La & Lb).
        { rewrite S1, nth_error_app2 in N by lia. apply nth_error_split in N. destruct N as (a & b & e1 & e2). eauto. }
        subst l1. rewrite S1 in E0. rewrite app_assoc in E0.
        replace q with (length (base ++ a)) in E0 by (rewrite app_length; lia).
        rewrite upd_last, Es in E0.
        match type of E0 with parameter_offsets _ _ _ (set_syms (_ ++ ?x :: _) _) = _ => set (s' := x) in E0 end.
        apply IH with (l := a ++ s' :: b) in E0.
        + destruct E0 as (l' & g1 & g2). exists l'. split; [exact g1|].
          clear -g2 Es. apply Forall2_app_inv_l in g2. destruct g2 as (x & y & g2 & g3 & ->).
          apply Forall2_app; [exact g2|]. inversion g3 as [|? s2 ? y' (v' & o & e1 & e2) g4]; subst.
          constructor; [|exact g4]. cbn in e1. inversion e1; subst. exists v, o. split; [exact Es|reflexivity].
        + cbn. rewrite <- app_assoc. reflexivity.
        + apply Forall_app in V1. destruct V1 as [V1 V2]. inversion V2; subst. apply Forall_app. split; [exact V1|].
          constructor; [|assumption]. eexists. reflexivity.
        + rewrite app_length in *. cbn in *. lia.
        + exact Hb.
Qed.

Theorem parameters n pp d off d' :
  formal_parameters n pp d = Done off d' -> nsyms d = S pp ->
  exists m, syms d' = syms d ++ m /\
  (types_fit (syms d') -> total m <= 32768 ->
   off = - total m /\ all_apart m /\ Forall (within off 0) m /\
   Forall (fun s => Z.even (start s) = true) m /\ Forall (as_parameter (syms d')) m).
Proof.
  intros E Hn. unfold formal_parameters in E. unfold bind at 1, set_nparms in E.
  set (d0 := mkD _ _ _ _ _ _ _ _ _ _ _ _) in E.
  unfold bind at 1, token in E. unfold bind at 1 in E.
  match type of E with match ?m d0 with _ => _ end = _ => destruct (m d0) as [[] d1| | | |] eqn:E1 end; try discriminate.
  assert (H : exists l, syms d1 = syms d ++ l /\ gParms d1 = Z.of_nat (length l) /\ Forall (added_some (syms d1)) l).
  { destruct (_ =? tLPAREN).
    - unfold bind in E1. destruct (parameter_sections n n d0) as [[] d2| | | |] eqn:E2; try discriminate.
      apply sections_add in E2. apply expect_quiet in E1. destruct E1 as [a1 a2]. destruct E2 as (l & h1 & h2 & h3).
      exists l. rewrite a1, a2. split; [exact h1|]. split; [cbn in h2; lia|exact h3].
    - inversion E1; subst. exists []. cbn. rewrite app_nil_r. auto. }
  destruct H as (l & h1 & h2 & h3).
  unfold bind, nparms in E. rewrite h2, Nat2Z.id in E.
  assert (V : Forall is_var l).
  { eapply Forall_impl; [|exact h3]. intros s (b & v & hv & _). exists v. exact hv. }
  assert (X : Forall (fun s => 0 <= extent s) l).
  { eapply Forall_impl; [|exact h3]. intros s (b & v & hv & hb). unfold extent. rewrite hv. destruct b.
    - destruct hb as [_ ->]. lia.
    - destruct hb as (p & ts & t & _ & _ & _ & _ & ->). unfold u32. apply Z.mod_pos_bound. lia. }
  assert (pe : pp = (length (syms d) - 1)%nat) by (unfold nsyms in Hn; lia). rewrite pe in E.
  (* the sizes do not depend on the offsets *)
  assert (Hb : (0 < length (syms d))%nat) by (unfold nsyms in Hn; lia).
  destruct (offsets_keep _ _ _ _ _ _ E l h1 V (le_n _) Hb) as (m & Hm & g0). exists m. split; [exact Hm|].
  intros F Ht.
  assert (Hl : total l = total m).
  { clear -g0. induction g0 as [|s s' l m (v & o & e1 & ->) _ IH]; [reflexivity|]. cbn [total]. rewrite IH.
    unfold words_of, extent. rewrite e1. reflexivity. }
  apply (offsets_run (syms d) l []) in E; auto; try lia.
  2:{ rewrite app_nil_r. exact h1. }
  destruct E as [-> (l' & g1 & g2 & g3)]. rewrite app_nil_r in g1.
  assert (l' = m) by (apply (app_inv_head (syms d)); congruence). subst l'.
  assert (Xm : Forall (fun s => 0 <= extent s) m).
  { clear -g2 X. induction g2 as [|s s' l m (v & o & e1 & ->) _ IH]; [constructor|]. inversion X; subst. constructor; auto.
    unfold extent in *. cbn. rewrite e1 in H1. exact H1. }
  destruct (stacked_laid m _ _ Xm g3) as (b' & k1 & k2).
  split; [lia|]. split; [eapply laid_apart; exact k1|]. split.
  { apply laid_within in k1. eapply Forall_impl; [|exact k1]. unfold within. intros s h. lia. }
  split.
  { eapply stacked_even; [|exact g3]. rewrite Z.even_sub, total_even. reflexivity. }
  (* sizes and kinds *)
  assert (Q : Forall2 (fun s s' => added_some (syms d1) s /\ exists v o, sParm s = PVar v /\ s' = mkS (sName s) (sKind s) (PVar (mkVar o (vSize v) (vPar v)))) l m).
  { clear -g2 h3. induction g2 as [|s s' l m H _ IH]; [constructor|]. inversion h3; subst. constructor; auto. }
  rewrite Forall_forall. intros s' I.
  assert (exists s, added_some (syms d1) s /\ exists v o, sParm s = PVar v /\ s' = mkS (sName s) (sKind s) (PVar (mkVar o (vSize v) (vPar v)))) as (s & (b & v & hv & hb) & v' & o & e1 & e2).
  { clear -Q I. induction Q as [|s s2 l m H _ IH]; [contradiction|]. destruct I as [<-|I]; [eauto|auto]. }
  assert (v' = v) by congruence. subst v' s'. unfold as_parameter, extent. cbn. destruct b.
  - left. exact hb.
  - right. destruct hb as (p & ts & t & a1 & a2 & a3 & a4 & a5).
    assert (N : nth_error (syms d') p = Some ts).
    { rewrite Hm. rewrite h1 in a2. eapply nth_moved; [exact a2|intros v'; congruence|exact g2]. }
    exists p, ts, t. repeat match goal with |- _ /\ _ => split end; auto.
    rewrite a5. apply nth_error_In in N. pose proof (F _ _ N a3) as f. unfold u32, s32, u32.
    cbv zeta. rewrite (Z.mod_small (tSize t)) by lia. destruct (_ <? _) eqn:Q2; [|lia]. apply Z.mod_small. lia.
Qed.

