(** The frame of the functions that build types. *)

From Coq Require Import ZArith Bool List Lia Arith.
From Verif Require Import Words ExprModel DeclModel DeclFrame.
Import ListNotations.
Open Scope Z_scope.

Ltac near := unfold fresh, fresh', from' in *; lia.
Ltac fs :=
  match goal with
  | |- frm _ _ _ _ _ (ret _) _ => apply frm_ret; try exact I; try assumption
  | |- frm _ _ _ _ _ (if _ then _ else _) _ => apply frm_if
  | |- frm _ _ _ _ _ ub _ => apply frm_ub
  | |- frm _ _ _ _ _ hang _ => apply frm_hang
  | |- frm _ _ _ _ _ not_modelled _ => apply frm_nm
  | |- frm _ _ _ _ _ no_fuel _ => apply frm_nf
  | |- frm _ _ _ _ _ (bind (add_type _ _ _ _) _) _ => eapply frm_bind; [solve [ms]|apply frm_addt|]; intros ?p ?Hp
  | |- frm _ _ _ _ _ (bind (add_const _ _ _ _) _) _ => eapply frm_bind; [solve [ms]|apply frm_addc|]; intros ?p ?Hp
  | |- frm _ _ _ _ _ (bind _ _) _ => apply frm_seq; [solve [ms]| |intros ?x]
  | |- frm _ _ _ _ _ (match ?x with Some _ => _ | None => _ end) _ => destruct x
  | |- frm _ _ _ _ _ token any => apply frm_token
  | |- frm _ _ _ _ _ tkn_ptr any => apply frm_ptr
  | |- frm _ _ _ _ _ tkn_str any => apply frm_str
  | |- frm _ _ _ _ _ tkn_uint any => apply frm_uint
  | |- frm _ _ _ _ _ var_size any => apply frm_vsize
  | |- frm _ _ _ _ _ nsym any => apply frm_nsym
  | |- frm _ _ _ _ _ (set_var_size _) any => apply frm_setv
  | |- frm _ _ _ _ _ (error _) any => apply frm_error
  | |- frm _ _ _ _ _ getToken any => apply frm_get
  | |- frm _ _ _ _ _ getLevelToken any => apply frm_getl
  | |- frm _ _ _ _ _ (get_sym _) any => apply frm_gsym
  | |- frm _ _ _ _ _ (get_type _) any => apply frm_gtype0
  | |- frm _ _ _ _ _ (as_type _) any => apply frm_atype
  | |- frm _ _ _ _ _ (get_field _) any => apply frm_gfield0
  | |- frm _ _ _ _ _ (expect _ _) any => apply frm_expect
  | |- frm _ _ _ _ _ (base_type _) any => apply frm_baset
  | |- frm _ _ _ _ _ (int_align_required _) any => apply frm_align
  | |- frm _ _ _ _ _ (type_identifier) any => apply frm_tid
  | |- frm _ _ _ _ _ (ordinal_type_identifier) any => apply frm_otid
  | |- frm _ _ _ _ _ (upd_type _ _) any => apply frm_updt; [intros ?t ?H0 ?H1; exact H1|near]
  end.
Ltac fss := repeat fs.

Lemma nth_upd f : forall p (l : list sym) i,
  nth_error (firstn p l ++ match skipn p l with [] => [] | s :: r => f s :: r end) i =
  if (i =? p)%nat then option_map f (nth_error l i) else nth_error l i.
Proof.
  induction p as [|p IH]; intros l i.
  - cbn [firstn skipn app]. destruct l as [|s r]; destruct i; reflexivity.
  - destruct l as [|s r].
    + cbn. destruct i; cbn; [reflexivity|]. destruct (i =? p)%nat; reflexivity.
    + cbn [firstn skipn app]. destruct i as [|i]; [reflexivity|]. cbn [nth_error Nat.eqb]. apply IH.
Qed.

(** ** The index units of an array *)

Definition closed (p U : nat) (l : list sym) : Prop :=
  forall i s t, (p <= i < U)%nat -> nth_error l i = Some s -> sParm s = PType t -> fresh' p U (tIdx t).

(** Only sizes of types between [p] and [U] change. *)
Definition resized (p : nat) (d d' : ds) : Prop :=
  firstn p (syms d') = firstn p (syms d) /\ nsyms d' = nsyms d /\ gStack d' = gStack d /\
  forall P : sym -> Prop,
    (forall s t n, P s -> sParm s = PType t -> P (mkS (sName s) (sKind s) (PType (set_size n t)))) ->
    Forall P (skipn p (syms d)) -> Forall P (skipn p (syms d')).

Lemma unit_keeps p U n : forall ip u d r d',
  unit_loop n ip u d = Done r d' -> closed p U (syms d) -> fresh' p U ip -> resized p d d'.
Proof.
  induction n as [|n IH]; intros [q|] u d r d' E C F; cbn [unit_loop] in E; cbv zeta in E.
  - discriminate.
  - inversion E; subst. unfold resized. auto.
  - unfold bind at 1, upd_type, upd in E. cbv beta iota in E.
    set (l1 := firstn q (syms d) ++ _) in E.
    unfold bind at 1, get_type, bind, get_sym in E. cbn [syms set_syms] in E.
    destruct (nth_error l1 q) as [s|] eqn:N; [|discriminate].
    destruct (sParm s) as [t| | | |] eqn:Es; try discriminate.
    cbn [ret] in E. destruct (out32 _ || _); [discriminate|].
    assert (C1 : closed p U l1).
    { intros i s1 t1 Hi N1 E1. unfold l1 in N1. rewrite nth_upd in N1.
      destruct (i =? q)%nat eqn:Q; [|eapply C; eauto].
      destruct (nth_error (syms d) i) as [s2|] eqn:N2; [|discriminate]. cbn in N1. inversion N1; subst s1.
      destruct (sParm s2) as [t2| | | |] eqn:E2; cbn in E1; rewrite ?E2 in E1; try discriminate.
      inversion E1; subst t1. exact (C i s2 t2 Hi N2 E2). }
    apply IH in E; [|exact C1|exact (C1 q s t F N Es)].
    destruct E as (e1 & e2 & e3 & e4). cbn [syms set_syms nsyms gStack] in *. unfold nsyms in *. cbn [syms set_syms] in *.
    set (ff := fun s : sym => match sParm s with PType t => mkS (sName s) (sKind s) (PType (set_size u t)) | _ => s end).
    pose proof (split_upd p q ff (syms d)) as S. cbv zeta in S.
    change (firstn q (syms d) ++ _) with l1 in S.
    destruct S as [S1 S2]. cbn in F.
    unfold resized, nsyms. rewrite e1, S1 by lia. split; [reflexivity|]. rewrite e2. unfold l1.
    rewrite upd_length. split; [reflexivity|]. split; [exact e3|].
    intros P HP FP. apply e4; [exact HP|]. apply S2; [exact FP| |lia].
    intros s1 Hs1. unfold ff. destruct (sParm s1) eqn:E1; auto.
  - inversion E; subst. unfold resized. auto.
Qed.

Lemma fr_up L U l0 s0 d d' p :
  fr false L U l0 s0 d -> (L <= p <= nsyms d)%nat -> firstn p (syms d') = firstn p (syms d) ->
  Forall (fun s => not_var s /\ leads false L U s) (skipn p (syms d')) -> gStack d' = s0 ->
  fr false L U l0 s0 d'.
Proof.
  intros [p1 p2 p3 p4] Hp e F Hs. unfold nsyms in *.
  assert (Hl : (p <= length (syms d'))%nat).
  { apply (f_equal (@length sym)) in e. rewrite !firstn_length in e. lia. }
  assert (e0 : firstn L (syms d') = firstn L (syms d)).
  { apply (f_equal (firstn L)) in e. rewrite !firstn_firstn, Nat.min_l in e by lia. exact e. }
  constructor; [rewrite e0; exact p1|unfold nsyms; lia| |exact Hs].
  assert (h : skipn L (syms d') = skipn L (firstn p (syms d')) ++ skipn p (syms d')).
  { rewrite <- (firstn_skipn p (syms d')) at 1. rewrite skipn_app, firstn_length, Nat.min_l by lia.
    replace (L - p)%nat with O by lia. reflexivity. }
  rewrite h. apply Forall_app. split; [|exact F]. rewrite e.
  assert (h' : skipn L (syms d) = skipn L (firstn p (syms d)) ++ skipn p (syms d)).
  { rewrite <- (firstn_skipn p (syms d)) at 1. rewrite skipn_app, firstn_length, Nat.min_l by lia.
    replace (L - p)%nat with O by lia. reflexivity. }
  rewrite h' in p3. apply Forall_app in p3. apply p3.
Qed.

Lemma leads_weak ix L U L' U' s : leads ix L U s -> (L' <= L)%nat -> (U <= U')%nat -> leads false L' U' s.
Proof.
  unfold leads. intros H HL HU. destruct (sParm s) as [t| |f| |]; auto.
  - split; [apply H|discriminate].
  - unfold fresh' in *. destruct (rNext f); auto. lia.
Qed.

Lemma as_type_same p d t d' : as_type p d = Done t d' -> d' = d.
Proof.
  unfold as_type, bind, get_sym. destruct (nth_error _ _) as [s|]; [|discriminate].
  destruct (sParm s); intros E; inversion E; reflexivity.
Qed.
Lemma get_type_same p d t d' : get_type p d = Done t d' -> d' = d.
Proof.
  unfold get_type, bind, get_sym. destruct (nth_error _ _) as [s|]; [|discriminate].
  destruct (sParm s); intros E; inversion E; reflexivity.
Qed.
Lemma base_loop_same n : forall b d p d', base_loop n b d = Done p d' -> d' = d.
Proof.
  induction n as [|n IH]; intros b d p d' E; cbn [base_loop] in E; unfold bind at 1 in E;
    destruct (as_type b d) as [t d1| | | |] eqn:E1; try discriminate;
    apply as_type_same in E1; subst d1; destruct (tPar t) as [q|]; try (inversion E; reflexivity);
    unfold bind, get_sym in E; destruct (nth_error (syms d) q) as [s|]; try discriminate;
    destruct (_ && _); try (inversion E; reflexivity).
  exact (IH _ _ _ _ E).
Qed.
Lemma base_type_same p d q d' : base_type p d = Done q d' -> d' = d.
Proof. intros E. exact (base_loop_same _ _ _ _ _ E). Qed.

Section Types.
Variable td : M nat.
Hypothesis Mtd : mono td.
Hypothesis Htd : forall L U l0 s0, frm false L U l0 s0 td any.
Hint Resolve Mtd : mono.

Definition array_tail (k : nat) (name : Z) : M (option nat) :=
  p <- add_type name sARRAY 0 None;;
  index_list k p None;;
  expect tRBRACK eRBRACKET;;
  array_base_type td p;;
  ret (Some p).

Lemma frm_array_tail L U l0 s0 k name : frm false L U l0 s0 (array_tail k name) (fresh' L U).
Proof using Htd Mtd.
  intros d a d' E F HU.
  assert (Hm : (S (nsyms d) <= nsyms d')%nat).
  { unfold array_tail in E. unfold bind at 1 in E. cbn [add_type add_sym] in E.
    match type of E with ?m ?d1 = _ => assert (h : mono m) by ms; apply h in E end.
    unfold nsyms in *. cbn in E. rewrite app_length in E. cbn in E. lia. }
  unfold array_tail in E. unfold bind at 1 in E. cbn [add_type add_sym] in E.
  set (p := length (syms d)) in E. set (s := mkS _ _ _) in E. set (d1 := set_syms _ d) in E.
  assert (Hd1 : nsyms d1 = S p).
  { unfold nsyms, d1. cbn. rewrite app_length. cbn. lia. }
  unfold bind at 1 in E. destruct (index_list k p None d1) as [x1 d2| | | |] eqn:E1; try discriminate.
  set (U1 := nsyms d2).
  pose proof (mono_ilist _ _ _ _ _ _ E1) as m1.
  destruct F as [p1 p2 p3 p4].
  assert (F1 : fr true p U1 (syms d) s0 d1).
  { constructor.
    - unfold d1, p. cbn. rewrite firstn_app, Nat.sub_diag, firstn_all. cbn. apply app_nil_r.
    - unfold nsyms in *. lia.
    - unfold d1, p. cbn [syms set_syms]. rewrite skipn_app_le, skipn_all by lia. cbn. constructor; [|constructor].
      split; [exact I|]. split; [reflexivity|]. intros _. exact I.
    - exact p4. }
  destruct (frm_ilist true p U1 (syms d) s0 k p None) with (1 := conj (le_n p) (Nat.lt_le_trans _ _ _ (Nat.lt_succ_diag_r p) (Nat.le_trans _ _ _ (Nat.eq_le_incl _ _ (eq_sym Hd1)) m1))) (2 := I) (3 := E1) (4 := F1) (5 := le_n U1)
    as [F2 _].
  (* expect *)
  unfold bind at 1 in E. destruct (expect tRBRACK eRBRACKET d2) as [x2 d3| | | |] eqn:E2; try discriminate.
  assert (q2 : syms d3 = syms d2 /\ gStack d3 = gStack d2).
  { unfold expect, bind, token in E2. destruct (_ =? _); inversion E2; subst; cbn; auto.
    split; [apply next_syms|apply next_stack]. }
  unfold bind at 1 in E. destruct (array_base_type td p d3) as [x3 d9| | | |] eqn:E3; try discriminate.
  inversion E; subst a d9. clear E.
  unfold array_base_type in E3. unfold bind at 1 in E3.
  destruct (expect tOF eOF d3) as [x4 d4| | | |] eqn:E4; try discriminate.
  assert (q4 : syms d4 = syms d3 /\ gStack d4 = gStack d3).
  { unfold expect, bind, token in E4. destruct (_ =? _); inversion E4; subst; cbn; auto.
    split; [apply next_syms|apply next_stack]. }
  unfold bind at 1 in E3. destruct (td d4) as [bp d5| | | |] eqn:E5; try discriminate.
  match type of E3 with ?m ?dd = _ => assert (h : mono m) by ms; pose proof (h _ _ _ E3) as m5 end.
  destruct q2 as [q2 q2']. destruct q4 as [q4 q4'].
  assert (s4 : syms d4 = syms d2) by congruence.
  assert (U4 : nsyms d4 = U1) by (unfold nsyms, U1, nsyms; congruence).
  destruct F2 as [f1 f2 f3 f4].
  assert (F4 : fr false U1 U (syms d2) s0 d4).
  { constructor.
    - rewrite s4. apply firstn_all2. unfold U1, nsyms. lia.
    - lia.
    - rewrite s4. unfold U1, nsyms. rewrite skipn_all. constructor.
    - congruence. }
  destruct (Htd U1 U (syms d2) s0 d4 bp d5 E5 F4) as [[g1 g2 g3 g4] _]; [lia|].
  (* base type *)
  unfold bind at 1 in E3. destruct (base_type bp d5) as [b d6| | | |] eqn:E6; try discriminate.
  assert (q6 : d6 = d5) by (eapply base_type_same; exact E6). subst d6.
  unfold bind at 1 in E3. destruct (as_type b d5) as [bt d6| | | |] eqn:E7; try discriminate.
  assert (q7 : d6 = d5) by (eapply as_type_same; exact E7). subst d6.
  unfold bind at 1 in E3. destruct (get_type p d5) as [at_ d6| | | |] eqn:E8; try discriminate.
  unfold get_type, bind, get_sym in E8.
  destruct (nth_error (syms d5) p) as [sa|] eqn:N; [|discriminate].
  destruct (sParm sa) as [ta| | | |] eqn:Ea; try discriminate. inversion E8; subst d6 at_. clear E8.
  unfold bind at 1 in E3. cbn [nsym] in E3. unfold bind in E3.
  destruct (unit_loop _ _ _ d5) as [u d6| | | |] eqn:E9; try discriminate.
  assert (m12 : (p < U1)%nat) by lia.
  assert (C : closed p U1 (syms d5)).
  { intros i si ti Hi Ni Ei.
    assert (Ni' : nth_error (syms d2) i = Some si).
    { rewrite <- (firstn_skipn U1 (syms d5)), g1 in Ni. rewrite nth_error_app1 in Ni; [exact Ni|].
      unfold U1, nsyms in Hi. lia. }
    assert (F2 : fr true p U1 (syms d) s0 d2) by (constructor; assumption).
    destruct (fr_in _ _ _ _ _ i si d2 F2 (proj1 Hi) Ni') as [_ ld]. unfold leads in ld. rewrite Ei in ld.
    apply (proj2 ld eq_refl). }
  apply (unit_keeps p U1) in E9; [|exact C|].
  2:{ exact (C p sa ta (conj (le_n p) m12) N Ea). }
  destruct E9 as (r1 & r2 & r3 & r4).
  assert (F6 : fr false L U l0 s0 d6).
  { apply fr_up with (d := d) (p := p).
    - constructor; assumption.
    - unfold nsyms in *. fold p. fold p in p2. lia.
    - rewrite r1. unfold p. rewrite firstn_all.
      apply (f_equal (firstn p)) in g1. rewrite firstn_firstn, Nat.min_l in g1 by lia.
      fold p. rewrite g1. exact f1.
    - apply r4.
      + intros s1 t1 n [h1 h2] Et. split; [exact I|]. unfold leads in *. rewrite Et in h2. cbn. exact h2.
      + assert (e : skipn p (syms d5) = skipn p (syms d2) ++ skipn U1 (syms d5)).
        { rewrite <- (firstn_skipn U1 (syms d5)) at 1. rewrite g1. rewrite skipn_app_le; [reflexivity|].
          unfold nsyms in f2. lia. }
        unfold nsyms in p2. fold p in p2. rewrite e. apply Forall_app. split.
        * eapply Forall_impl; [|exact f3]. intros s1 [h1 h2]. split; [exact h1|].
          eapply leads_weak; [exact h2|lia|]. unfold nsyms in *. lia.
        * eapply Forall_impl; [|exact g3]. intros s1 [h1 h2]. split; [exact h1|].
          eapply leads_weak; [exact h2|lia|lia].
    - congruence. }
  assert (Lp : (L <= p)%nat) by (unfold nsyms in p2; fold p in p2; lia).
  assert (E3' : upd_type p (fun t => set_par (Some bp) (set_size u t)) d6 = Done x3 d') by exact E3.
  destruct (frm_updt false L U l0 s0 p (fun t => set_par (Some bp) (set_size u t)))
    with (3 := E3') (4 := F6) (5 := HU) as [F9 _]; [discriminate|exact Lp|].
  split; [exact F9|]. cbn. unfold nsyms in *. fold p in Hm. lia.
Qed.

Section InFrame.
Variables (L U : nat) (l0 : list sym) (s0 : Z).
Notation fr := (fr false L U l0 s0).
Notation frm := (frm false L U l0 s0).
Notation fresh := (fresh L U).
Notation fresh' := (fresh' L U).
Notation from' := (from' L).

Lemma frm_array k name : frm (array_type td k name) fresh'.
Proof using Htd Mtd.
  unfold array_type. fs; [fs|]. fs; [fs|]. fs; [fss|]. apply frm_array_tail.
Qed.

Lemma frm_field k : forall rp last, (L <= rp)%nat -> from' last -> frm (declare_field td k rp last) fresh'.
Proof using Htd Mtd.
  induction k as [|k IH]; intros rp last Hr Hl; cbn [declare_field]; [fs|].
  fs; [fs|]. fs; [fss|]. fs; [fs|].
  eapply frm_bind; [ms|apply frm_addf; exact Hl|]. intros fp Hf.
  fs; [fs|]. fs; [fs|]. fs.
  - apply frm_if.
    + fs; [fs|]. eapply frm_bind; [ms|apply IH; [exact Hr|exact (proj1 Hf)]|]. intros np _. fss.
    + fs; [fs|]. fs; [apply Htd|fs].
  - fs; [apply frm_updt; [intros ? _ h; exact h|exact Hr]|].
    match goal with |- DeclFrame.frm _ _ _ _ _ (match ?x with None => _ | _ => _ end) _ => destruct x end.
    + fs; [fs|]. fs; [apply frm_updf; [intros ? h; exact h|exact (proj1 Hf)]|]. fs.
    + fs.
Qed.

Lemma frm_fixed k : forall rp last, (L <= rp)%nat -> from' last -> frm (fixed_part td k rp last) any.
Proof using Htd Mtd.
  induction k as [|k IH]; intros rp last Hr Hl; cbn [fixed_part]; [fs|].
  fs; [fs|]. fs; [fs|].
  eapply frm_bind; [ms|apply frm_field; assumption|]. intros fp Hf.
  fs; [fs|]. fs; [|fs]. fs; [fs|]. fs; [fs|]. fs; [fs|]. apply IH; [exact Hr|].
  eapply fresh_from. exact Hf.
Qed.

Lemma frm_place p off : (L <= p)%nat -> frm (place_field p off) any.
Proof using.
  intros H. unfold place_field. fs; [fs|]. fs; [fss|]. cbv zeta.
  fs; [apply frm_updf; [intros ? h; exact h|exact H]|]. fs.
Qed.

Lemma frm_places n : forall fp off, from' fp -> frm (place_fields n fp off) (fun r => from' (fst (fst r))).
Proof using.
  induction n as [|n IH]; intros [p|] off H; cbn [place_fields]; try (apply frm_ret; assumption).
  fs; [apply frm_place; exact H|].
  eapply frm_bind; [ms|apply frm_gfield; exact H|]. intros f Hf. apply IH. eapply fresh_from. exact Hf.
Qed.

Lemma frm_consts k : frm (case_constants k) any.
Proof using. induction k as [|k IH]; cbn [case_constants]; [fs|]. fss. exact IH. Qed.

Lemma frm_vfields k : forall rp last first, (L <= rp)%nat -> from' last -> from' first ->
  frm (variant_fields td k rp last first) from'.
Proof using Htd Mtd.
  induction k as [|k IH]; intros rp last first Hr Hl H1; cbn [variant_fields]; [fs|].
  eapply frm_bind; [ms|apply frm_field; assumption|]. intros fp Hf. cbv zeta.
  assert (Hf' : from' fp) by (eapply fresh_from; exact Hf).
  assert (Hm : from' (match first with None => fp | Some _ => first end)) by (destruct first; assumption).
  fs; [fs|]. fs; [|fs]. fs; [fs|]. fs; [fs|]. fs; [fs|]. apply IH; assumption.
Qed.

Lemma frm_variants k : forall rp last a b c, (L <= rp)%nat -> from' last ->
  frm (variants td k rp last a b c) any.
Proof using Htd Mtd.
  induction k as [|k IH]; intros rp last a b c Hr Hl; cbn [variants]; [fs|].
  fs; [fs|]. fs; [fss|]. fs; [apply frm_consts|]. fs; [fs|]. fs; [fs|]. fs; [fs|].
  eapply (frm_bind false L U l0 s0 _ _ _ _ (fun r => from' (fst (fst r)))); [ms| |].
  - fs; [fs|]. eapply frm_bind; [ms|apply frm_vfields; [exact Hr|exact Hl|exact I]|]. intros first Hf.
    fs; [fs|]. eapply frm_bind; [ms|apply frm_places; exact Hf|]. intros [[fp off] rem] Hp. fs.
  - intros [[last' placed'] mx'] Hl'. cbn in Hl'. fs; [fs|]. fs; [fs|]. fs; [|fs].
    fs; [fs|]. fs; [fs|]. fs; [fs|]. apply IH; assumption.
Qed.

Lemma frm_record k name : frm (declare_record td k name) fresh.
Proof using Htd Mtd.
  unfold declare_record. eapply frm_bind; [cbv zeta; ms|apply frm_addt|]. intros rp Hp.
  fs; [apply frm_fixed; [exact (proj1 Hp)|exact I]|]. fs; [fs|].
  eapply frm_bind; [cbv zeta; ms|apply frm_places; cbn; near|]. intros [[fp off] rem] Hf. cbn in Hf. cbv zeta.
  fs; [fs|]. fs; [fs|]. fs.
  - fs; [|fs]. fs; [fs|]. fs; [fs|].
    eapply (frm_bind false L U l0 s0 _ _ _ _ (fun r => from' (fst r))); [ms| |].
    + fs; [fs; [fs|fs]|]. fs; [fs|]. fs; [fs|]. fs; [fs|]. fs; [fs|]. fs.
      * eapply frm_bind; [ms|apply frm_addf; exact Hf|]. intros sp Hs.
        fs; [fs|]. fs; [fs|]. fs; [apply frm_updf; [intros ? h; exact h|exact (proj1 Hs)]|].
        fs; [apply frm_place; exact (proj1 Hs)|]. fs. exact (proj1 Hs).
      * fs; [fs|]. fs.
    + intros [fp' off'] Hf'. cbn in Hf'. fs; [fs|].
      fs; [apply frm_variants; [exact (proj1 Hp)|exact Hf']|]. fs.
  - fs; [fs|]. fs.
Qed.

Lemma frm_complex k name : frm (new_complex_type td k name) fresh'.
Proof using Htd Mtd.
  unfold new_complex_type. fs; [fs|]. fs.
  { fs; [fs|]. fs; [fs|]. fs.
    - fss.
    - fs; [fs|]. fs; [|fss]. fs; [fs|].
      eapply frm_bind; [ms|apply frm_ford|]. intros p Hp. fs; [fs|]. fs; [fs|]. fs; [fss|]. fs. }
  fs. { fs; [fs|]. fs; [fs|]. fs; [apply frm_array|fss]. }
  fs. { apply frm_array. }
  fs. { fs; [fs|]. eapply frm_bind; [ms|apply frm_record|]. intros p Hp. fs. }
  fs. { fs; [fs|]. fs; [fs|]. fs; [fs|]. fs.
        - fs; [fs|]. eapply frm_any. apply frm_dsimple. reflexivity.
        - fss. }
  fs. { fs; [fs|]. fs; [fs|]. fs; [apply Htd|]. fss. }
  fss.
Qed.
End InFrame.
End Types.

Lemma frm_td n : forall name L U l0 s0, frm false L U l0 s0 (type_denoter n name) any.
Proof.
  induction n as [|n IH]; intros name L U l0 s0; cbn [type_denoter]; [fs|].
  fs; [fs|]. fs; [fs|].
  eapply frm_bind; [ms|apply frm_complex; [ms|intros; apply IH]|]. intros q Hq.
  fs; [|fss]. fs; [fs|]. fs; [eapply frm_any; apply frm_simple|]. fss.
Qed.
