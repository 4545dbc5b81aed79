(** The compiler finds the value of a constant expression. *)

From Coq Require Import ZArith Bool List Lia ZifyBool.
From Verif Require Import Words State ExprModel StmtModel ExprSpec ConstModel ConstSpec ConstBits ConstParts.
Import ListNotations.
Open Scope Z_scope.

(** ** The result with enough fuel *)

Definition ev (F : nat -> kres) (r : kres) : Prop := exists N, forall n, (N <= n)%nat -> F n = r.
Lemma ev_const r : ev (fun _ => r) r.
Proof. exists O. reflexivity. Qed.
Lemma ev_S F G r : (forall n, F (S n) = G n) -> ev G r -> ev F r.
Proof. intros E (N & H). exists (S N). intros n L. destruct n; [lia|]. rewrite E. apply H. lia. Qed.
Lemma ev_bind F s k r : ev F (KDone s) -> ev (fun n => k n s) r -> ev (fun n => bindk (F n) (k n)) r.
Proof.
  intros (N & H) (M & K). exists (max N M). intros n L. rewrite H by lia. cbn. apply K. lia.
Qed.
Lemma ev_ext F G r : (forall n, F n = G n) -> ev G r -> ev F r.
Proof. intros E (N & H). exists N. intros n L. rewrite E. apply H. exact L. Qed.

Lemma const_expression_S n lo s : const_expression (S n) lo s =
  bindk (const_simple n lo s) (fun s =>
    if (rel_op (ktoken s) && rel_type (ktok s)) || (rel_set_op (ktoken s) && (ktok s =? tSET_CONST)) then
      let simple1 := ktok s in
      let operator := ktoken s in
      let a := kint s in
      let l := kset s in
      bindk (const_simple n lo s) (fun s =>
      let s := kerror_if (negb (simple1 =? ktok s)) eEXPRTYPE s in
      let s := compare_constants operator simple1 a l s in
      KDone (constant tBOOLEAN_CONST (kint s) s))
    else KDone s).
Proof. reflexivity. Qed.
Lemma const_simple_S n lo s : const_simple (S n) lo s =
    let signed := (ktoken s =? tPLUS) || (ktoken s =? tMINUS) in
    let minus := ktoken s =? tMINUS in
    let s := if signed then knext s else s in
    bindk (const_term n lo s) (fun s =>
    if signed && negb (ktok s =? tINT_CONST) then KUndefined
    else bindi (if minus then int32 (- kint s) else Some (kint s)) (fun v =>
    const_terms n lo (ktok s) v (kset s) s)).
Proof. reflexivity. Qed.
Lemma const_terms_S n lo term v l s : const_terms (S n) lo term v l s =
    let operator := ktoken s in
    if is_add_constant operator term then
      bindk (const_term n lo (knext s)) (fun s =>
      let s := kerror_if (negb (term =? ktok s)) eTERMTYPE s in
      if term =? tINT_CONST then
        bindi (int32 (if operator =? tPLUS then v + kint s else v - kint s)) (fun v => const_terms n lo term v l s)
      else if term =? tBOOLEAN_CONST then const_terms n lo term (Z.lor v (kint s)) l s
      else
        let op := if operator =? tPLUS then set_union else if operator =? tMINUS then set_difference else set_symmetric in
        const_terms n lo term v l (with_set (op l (kset s)) s))
    else KDone (constant term v s).
Proof. reflexivity. Qed.
Lemma const_term_S n lo s : const_term (S n) lo s =
  bindk (const_factor n lo s) (fun s => const_factors n lo (ktok s) (kint s) s).
Proof. reflexivity. Qed.
Lemma const_factors_S n lo factor v s : const_factors (S n) lo factor v s =
    let operator := ktoken s in
    if is_mul_constant operator factor then
      bindk (const_factor n lo (knext s)) (fun s =>
      let s := kerror_if (negb (factor =? ktok s)) eFACTORTYPE s in
      if factor =? tSET_CONST then const_factors n lo factor v (kerror eFACTORTYPE s)
      else bindi (mul_constant operator v (kint s)) (fun v => const_factors n lo factor v s))
    else KDone (constant factor v s).
Proof. reflexivity. Qed.
Lemma const_factor_S n lo s : const_factor (S n) lo s =
    let t := ktoken s in
    if existsb (Z.eqb t) [tCHAR_CONST; tINT_CONST; tBOOLEAN_CONST] then
      KDone (knext (constant t (s32 (tval (kcur s))) s))
    else if existsb (Z.eqb t) [tREAL_CONST; tSTRING_CONST; sSTRING_CONST] then KNotModelled
    else if t =? tLBRACKET then set_constructor n lo s
    else if t =? tNOT then
      bindk (const_factor n lo (knext s)) (fun s =>
      let s := kerror_if (negb (logical_type (ktok s))) eFACTORTYPE s in
      KDone (constant (ktok s) (Z.lnot (kint s)) s))
    else if t =? tSTDFUNC then constant_function n (const_expression n 0) s
    else KDone (kerror eINVFACTOR s).
Proof. reflexivity. Qed.

(** ** Operators *)

Lemma bind_some {A B} (o : option A) (k : A -> option B) b : bind o k = Some b -> exists a, o = Some a /\ k a = Some b.
Proof. destruct o; cbn; [eauto|discriminate]. Qed.
Lemma int_value_inv z v : int_value z = Some v -> v = VI z /\ int32 z = Some z.
Proof.
  unfold int_value, int32. destruct (_ && _); [|discriminate]. intros H. split; congruence.
Qed.
Lemma char_value_inv z v : char_value z = Some v -> v = VC z /\ 0 <= z <= 255.
Proof. unfold char_value. destruct (_ && _) eqn:E; [|discriminate]. intros H. split; [congruence|lia]. Qed.
Lemma some_inv {A} (a b : A) : Some a = Some b -> b = a.
Proof. congruence. Qed.

Lemma mc_div v w : mul_constant tDIV v w = if w =? 0 then None else int32 (Z.quot v w).
Proof. reflexivity. Qed.
Lemma mc_mod v w : mul_constant tMOD v w = if w =? 0 then None else if (v =? -2147483648) && (w =? -1) then None else Some (Z.rem v w).
Proof. reflexivity. Qed.
Lemma mc_shl v w : mul_constant tSHL v w = if shift_ok w && (0 <=? v) then int32 (Z.shiftl v w) else None.
Proof. reflexivity. Qed.
Lemma mc_shr v w : mul_constant tSHR v w = if shift_ok w then Some (Z.shiftr v w) else None.
Proof. reflexivity. Qed.
Lemma mul_run lo o a b v t1 i1 l1 t2 i2 l2 x : value_cmul o a b = Some v -> is_set (Some a) = false -> spells_cmul x o ->
  represents lo a t1 i1 l1 -> represents lo b t2 i2 l2 ->
  is_mul_constant (tk x) t1 = true /\ t2 = t1 /\ (t1 =? tSET_CONST) = false /\
  exists i, mul_constant (tk x) i1 i2 = Some i /\ represents lo v t1 i l2.
Proof.
  unfold spells_cmul. intros V S X R1 R2. rewrite X. clear X x.
  destruct a as [p|p|p|p]; try discriminate S; clear S; (destruct b as [q|q|q|q]; try (destruct o; discriminate V)); cbn in R1, R2;
    destruct R1 as (-> & ->), R2 as (-> & ->); (split; [|split; [reflexivity|split; [reflexivity|]]]).
  - destruct o; try reflexivity; discriminate V.
  - destruct o; cbn in V.
    + apply int_value_inv in V. destruct V as (-> & I). eexists. split; [exact I|]. split; reflexivity.
    + rewrite mc_div. destruct (q =? 0); [discriminate V|]. apply int_value_inv in V. destruct V as (-> & I). eexists. split; [exact I|]. split; reflexivity.
    + rewrite mc_mod. destruct (q =? 0); [discriminate V|]. apply bind_some in V. destruct V as (u & U & V). apply some_inv in V. subst v.
      apply int_value_inv in U. destruct U as (_ & U).
      destruct ((p =? -2147483648) && (q =? -1)) eqn:M.
      * assert (p = -2147483648 /\ q = -1) as (-> & ->) by lia. discriminate U.
      * eexists. split; [reflexivity|]. split; reflexivity.
    + apply some_inv in V. subst v. eexists. split; [reflexivity|]. split; reflexivity.
    + rewrite mc_shl. destruct ((0 <=? p) && (0 <=? q) && (q <=? 31)) eqn:Q; [|discriminate V].
      unfold shift_ok. replace ((0 <=? q) && (q <=? 31) && (0 <=? p)) with true by lia. rewrite Z.shiftl_mul_pow2 by lia.
      apply int_value_inv in V. destruct V as (-> & I). eexists. split; [exact I|]. split; reflexivity.
    + rewrite mc_shr. destruct ((0 <=? p) && (0 <=? q) && (q <=? 31)) eqn:Q; [|discriminate V].
      unfold shift_ok. replace ((0 <=? q) && (q <=? 31)) with true by lia. rewrite Z.shiftr_div_pow2 by lia.
      apply some_inv in V. subst v. eexists. split; [reflexivity|]. split; reflexivity.
  - destruct o; try reflexivity; discriminate V.
  - destruct o; try discriminate V. apply some_inv in V. subst v. destruct p, q; eexists; (split; [reflexivity|]); split; reflexivity.
Qed.

Lemma scalar_any lo v t i l l' : is_set (Some v) = false -> represents lo v t i l -> represents lo v t i l'.
Proof. destruct v; try discriminate; auto. Qed.

Ltac noteq H := repeat match goal with |- context [tk (hd eoftok ?r) =? ?x] =>
  rewrite (proj2 (Z.eqb_neq (tk (hd eoftok r)) x)) by (let E := fresh in intro E; apply H; rewrite E; tauto) end.
(** The tokens of operators *)
Definition stops_mul (rest : list tok) : Prop := ~ In (tk (hd eoftok rest)) [tMUL; tMOD; tDIV; tSHL; tSHR; tAND].
Definition stops_add (rest : list tok) : Prop := ~ In (tk (hd eoftok rest)) [tPLUS; tMINUS; tOR; tSYMDIFF].
Lemma mul_stops t rest : stops_mul rest -> is_mul_constant (tk (hd eoftok rest)) t = false.
Proof.
  unfold stops_mul. cbn [In]. intros H. unfold is_mul_constant. cbn [existsb]. noteq H. reflexivity.
Qed.
Lemma add_stops t rest : stops_add rest -> is_add_constant (tk (hd eoftok rest)) t = false.
Proof.
  unfold stops_add. cbn [In]. intros H. unfold is_add_constant. cbn [existsb]. noteq H. reflexivity.
Qed.
Lemma ended_stops rest : ended rest -> stops_mul rest /\ stops_add rest /\
  (forall t, (rel_op (tk (hd eoftok rest)) && rel_type t) || (rel_set_op (tk (hd eoftok rest)) && (t =? tSET_CONST)) = false).
Proof.
  unfold ended, continues, stops_mul, stops_add. cbn [In]. intros H. split; [tauto|]. split; [tauto|].
  intros t. unfold rel_op, rel_set_op. cbn [existsb]. noteq H. reflexivity.
Qed.
Lemma ktoken_hd c ts t i l : ktoken (st_at c ts t i l) = tk (hd eoftok ts).
Proof. reflexivity. Qed.

Lemma factors_stop lo t i c rest t0 i0 l : stops_mul rest ->
  ev (fun n => const_factors n lo t i (st_at c rest t0 i0 l)) (KDone (st_at c rest t i l)).
Proof.
  intros S. eapply ev_S; [intros n; rewrite const_factors_S; cbv zeta; rewrite ktoken_hd, mul_stops by exact S; reflexivity|]. apply ev_const.
Qed.
Lemma terms_stop lo t i l0 c rest t0 i0 l : stops_add rest ->
  ev (fun n => const_terms n lo t i l0 (st_at c rest t0 i0 l)) (KDone (st_at c rest t i l)).
Proof.
  intros S. eapply ev_S; [intros n; rewrite const_terms_S; cbv zeta; rewrite ktoken_hd, add_stops by exact S; reflexivity|]. apply ev_const.
Qed.

(** ** The main induction *)

Definition PF (ts : list tok) (f : cfactor) : Prop :=
  forall lo v, fval lo f = Some v -> fgood lo f = true -> forall c rest t i l, exists t' i' l',
  represents lo v t' i' l' /\
  ev (fun n => const_factor n lo (st_at c (ts ++ rest) t i l)) (KDone (st_at c rest t' i' l')).
Definition PT (ts : list tok) (x : cterm) : Prop :=
  forall lo v, tval_of lo x = Some v -> tgood lo x = true -> forall c rest t i l, exists t' i' t0 i0 l',
  represents lo v t' i' l' /\
  forall r, ev (fun n => const_factors n lo t' i' (st_at c rest t0 i0 l')) r -> ev (fun n => const_term n lo (st_at c (ts ++ rest) t i l)) r.
Definition PS (ts : list tok) (x : csimple) : Prop :=
  forall lo v, sval lo x = Some v -> sgood lo x = true -> forall c rest t i l, stops_mul rest -> exists t' i' l0 t0 i0 l',
  represents lo v t' i' l' /\ match x with KTerm _ _ => l0 = l' | _ => True end /\
  forall r, ev (fun n => const_terms n lo t' i' l0 (st_at c rest t0 i0 l')) r -> ev (fun n => const_simple n lo (st_at c (ts ++ rest) t i l)) r.
Definition PE (ts : list tok) (x : cexpr) : Prop :=
  forall lo v, cval lo x = Some v -> cgood lo x = true -> forall c rest t i l, ended rest -> exists t' i' l',
  represents lo v t' i' l' /\
  ev (fun n => const_expression n lo (st_at c (ts ++ rest) t i l)) (KDone (st_at c rest t' i' l')).

(** The first token of a term is no sign. *)
Definition not_sign (ts : list tok) : Prop := exists x r, ts = x :: r /\ tk x <> tPLUS /\ tk x <> tMINUS.
Lemma factor_starts ts f : gcfactor ts f -> not_sign ts.
Proof.
  intros G. destruct G as [t a S N|a ts f A G|a b A B|a ts l b A G B|a f b ts e d (A & _) B G D]; (do 2 eexists; split; [reflexivity|]);
    try (rewrite A; split; discriminate).
  destruct a; cbn in S; try (destruct S as (-> & _)); try rewrite S; split; discriminate.
Qed.
Lemma sign_app ts us : not_sign ts -> not_sign (ts ++ us).
Proof. intros (x & r & -> & N). exists x, (r ++ us). split; [reflexivity|exact N]. Qed.
Lemma term_starts ts t : gcterm ts t -> not_sign ts.
Proof.
  intros G. induction G as [ts f G|ts t a o us f G IH A Gf]; [apply (factor_starts _ _ G)|]. apply sign_app, IH.
Qed.

Lemma lit_run lo t a v : spells_lit t a -> a <> LScalar -> value_lit a = Some v ->
  existsb (Z.eqb (tk t)) [tCHAR_CONST; tINT_CONST; tBOOLEAN_CONST] = true /\ forall l, represents lo v (tk t) (s32 (tval t)) l.
Proof.
  intros S N V. destruct a; cbn in S, V; try (destruct S as (-> & ->)); (split; [try reflexivity|intros l]).
  - apply int_value_inv in V. destruct V as (-> & I). split; [reflexivity|]. unfold int32 in I. destruct (_ && _) eqn:E; [|discriminate I].
    unfold s32, u32. destruct (n mod 4294967296 <? 2147483648) eqn:Q; lia.
  - apply char_value_inv in V. destruct V as (-> & I). split; [reflexivity|]. unfold s32, u32. rewrite Z.mod_small by lia. destruct (n <? 2147483648) eqn:Q; lia.
  - apply some_inv in V. subst v. destruct b; split; reflexivity.
  - destruct (N eq_refl).
  - discriminate V.
Qed.

(** ** Functions *)

Lemma lparen_at c a b ts t i l : tk b = tLPAREN -> check_lparen (st_at c (a :: b :: ts) t i l) = st_at c ts t i l.
Proof. intros B. unfold check_lparen. rewrite knext_at, ktoken_at, B, Z.eqb_refl. apply knext_at. Qed.
Lemma rparen_at c d ts t i l : tk d = tRPAREN -> check_rparen (st_at c (d :: ts) t i l) = st_at c ts t i l.
Proof. intros B. unfold check_rparen. rewrite ktoken_at, B, Z.eqb_refl. apply knext_at. Qed.

Lemma paren_ended d rest : tk d = tRPAREN -> ended (d :: rest).
Proof. intros D H. unfold continues in H. cbn [hd] in H. rewrite D in H. cbn in H. intuition discriminate. Qed.

Lemma function_run lo c a f b ts d rest t i l w v t1 i1 l1 arg :
  spells_fun a f -> tk b = tLPAREN -> tk d = tRPAREN ->
  ev (fun n => arg n (st_at c (ts ++ d :: rest) t i l)) (KDone (st_at c (d :: rest) t1 i1 l1)) ->
  represents 0 w t1 i1 l1 -> value_fun f w = Some v ->
  (match f with Odd | RealFun => false | Ord | Pred | Succ => negb (is_bool (Some w)) | _ => true end = true) ->
  exists t' i' l', represents lo v t' i' l' /\
    ev (fun n => constant_function n (arg n) (st_at c (a :: b :: ts ++ d :: rest) t i l)) (KDone (st_at c rest t' i' l')).
Proof.
  intros (A & F) B D E R V G.
  assert (K : forall k : nat -> cst -> kres, forall r, ev (fun n => k n (st_at c (d :: rest) t1 i1 l1)) r ->
    ev (fun n => bindk (arg n (check_lparen (st_at c (a :: b :: ts ++ d :: rest) t i l))) (k n)) r).
  { intros k r H. rewrite lparen_at by exact B. eapply ev_bind; [exact E|exact H]. }
  assert (Q : forall t' i', represents lo v t' i' l1 ->
    ev (fun _ => KDone (check_rparen (constant t' i' (st_at c (d :: rest) t1 i1 l1)))) (KDone (st_at c rest t' i' l1))).
  { intros t' i' _. rewrite constant_at, rparen_at by exact D. apply ev_const. }
  destruct f; try discriminate G; unfold constant_function; rewrite kcur_at; cbv zeta.
  - (* Abs *) rewrite F, Z.eqb_refl. destruct w as [x|x|x|x]; try discriminate V. cbn in V, R. destruct R as (-> & ->).
    apply int_value_inv in V. destruct V as (-> & I). exists tINT_CONST, (Z.abs x), l1. split; [split; reflexivity|].
    apply K. cbn [ktok kint st_at]. rewrite Z.eqb_refl. destruct (Z.ltb_spec x 0).
    + replace (- x) with (Z.abs x) by lia. rewrite I. cbn [bindi]. apply Q. split; reflexivity.
    + cbn [bindi]. replace (Z.abs x) with x in * by lia. apply Q. split; reflexivity.
  - (* Sqr *) rewrite F. change (txSQR =? txABS) with false. rewrite Z.eqb_refl. cbv iota.
    destruct w as [x|x|x|x]; try discriminate V. cbn in V, R. destruct R as (-> & ->).
    apply int_value_inv in V. destruct V as (-> & I). exists tINT_CONST, (x * x), l1. split; [split; reflexivity|].
    apply K. cbn [ktok kint st_at]. rewrite Z.eqb_refl, I. cbn [bindi]. apply Q. split; reflexivity.
  - (* Pred *) rewrite F. change (txPRED =? txABS) with false. change (txPRED =? txSQR) with false. rewrite Z.eqb_refl. cbv iota. cbn [orb].
    assert (X : exists x, i1 = x /\ ordinal_constant t1 = true /\ int32 (x - 1) = Some (x - 1) /\ represents lo v t1 (x - 1) l1).
    { destruct w as [x|x|[]|x]; try discriminate V; try discriminate G; cbn in V, R; destruct R as (-> & ->); exists x; (split; [reflexivity|]); (split; [reflexivity|]).
      - apply int_value_inv in V. destruct V as (-> & I). split; [exact I|]. split; reflexivity.
      - apply char_value_inv in V. destruct V as (-> & I). split; [|split; reflexivity]. unfold int32. replace ((-2147483648 <=? x - 1) && (x - 1 <=? 2147483647)) with true by lia. reflexivity. }
    destruct X as (x & -> & O & I & Rv). exists t1, (x - 1), l1. split; [exact Rv|].
    apply K. cbn [ktok st_at]. rewrite O. cbn [negb kerror_if ktok kint st_at]. rewrite I. cbn [bindi]. apply Q. exact Rv.
  - (* Succ *) rewrite F. change (txSUCC =? txABS) with false. change (txSUCC =? txSQR) with false. change (txSUCC =? txPRED) with false. rewrite Z.eqb_refl. cbv iota. cbn [orb].
    assert (X : exists x, i1 = x /\ ordinal_constant t1 = true /\ int32 (x + 1) = Some (x + 1) /\ represents lo v t1 (x + 1) l1).
    { destruct w as [x|x|[]|x]; try discriminate V; try discriminate G; cbn in V, R; destruct R as (-> & ->); exists x; (split; [reflexivity|]); (split; [reflexivity|]).
      - apply int_value_inv in V. destruct V as (-> & I). split; [exact I|]. split; reflexivity.
      - apply char_value_inv in V. destruct V as (-> & I). split; [|split; reflexivity]. unfold int32. replace ((-2147483648 <=? x + 1) && (x + 1 <=? 2147483647)) with true by lia. reflexivity. }
    destruct X as (x & -> & O & I & Rv). exists t1, (x + 1), l1. split; [exact Rv|].
    apply K. cbn [ktok st_at]. rewrite O. cbn [negb kerror_if ktok kint st_at]. rewrite I. cbn [bindi]. apply Q. exact Rv.
  - (* Chr *) rewrite F. change (txCHR =? txABS) with false. change (txCHR =? txSQR) with false. change ((txCHR =? txPRED) || (txCHR =? txSUCC)) with false.
    change (txCHR =? txSIZEOF) with false. change ((txCHR =? txROUND) || (txCHR =? txTRUNC)) with false. rewrite Z.eqb_refl. cbv iota.
    destruct w as [x|x|x|x]; try discriminate V. cbn in V, R. destruct R as (-> & ->).
    apply char_value_inv in V. destruct V as (-> & I). exists tCHAR_CONST, x, l1. split; [split; reflexivity|].
    apply K. cbn [ktok kint st_at]. rewrite Z.eqb_refl. apply Q. split; reflexivity.
  - (* Ord *) rewrite F. change (txORD =? txABS) with false. change (txORD =? txSQR) with false. change ((txORD =? txPRED) || (txORD =? txSUCC)) with false.
    change (txORD =? txSIZEOF) with false. change ((txORD =? txROUND) || (txORD =? txTRUNC)) with false. change (txORD =? txCHR) with false. rewrite Z.eqb_refl. cbv iota.
    assert (X : ordinal_constant t1 = true /\ represents lo v tINT_CONST i1 l1).
    { destruct w as [x|x|x|x]; try discriminate V; try discriminate G; cbn in V, R; destruct R as (-> & ->); apply some_inv in V; subst v; split; split; reflexivity. }
    destruct X as (O & Rv). exists tINT_CONST, i1, l1. split; [exact Rv|].
    apply K. cbn [ktok st_at]. rewrite O. cbn [negb kerror_if kint st_at]. apply Q. exact Rv.
Qed.

Theorem constants_run : (forall ts f, gcfactor ts f -> PF ts f) /\ (forall ts t, gcterm ts t -> PT ts t) /\
  (forall ts s, gcsimple ts s -> PS ts s) /\ (forall ts e, gcexpr ts e -> PE ts e).
Proof.
  apply constants_ind.
  - (* literal *) intros t a S N lo v V _ c rest t0 i0 l. cbn [fval] in V. destruct (lit_run lo _ _ _ S N V) as (X & R).
    exists (tk t), (s32 (tval t)), l. split; [apply R|]. cbn [app].
    eapply ev_S; [intros n; rewrite const_factor_S; cbv zeta; rewrite ktoken_at, kcur_at, X, constant_at, knext_at; reflexivity|]. apply ev_const.
  - (* not *) intros a ts f A G IH lo v V Gd c rest t0 i0 l. cbn [fval fgood] in V, Gd. apply bind_some in V. destruct V as (w & W & V).
    destruct (IH lo w W Gd c rest t0 i0 l) as (t1 & i1 & l1 & R & E).
    assert (X : logical_type t1 = true /\ represents lo v t1 (Z.lnot i1) l1).
    { destruct w as [x|x|[]|x]; try discriminate V; cbn in V, R; apply some_inv in V; subst v; destruct R as (-> & ->); split; try reflexivity; split; try reflexivity; unfold Z.lnot; lia. }
    destruct X as (L & Rv). exists t1, (Z.lnot i1), l1. split; [exact Rv|]. cbn [app].
    eapply ev_S; [intros n; rewrite const_factor_S; cbv zeta; rewrite ktoken_at, A; cbn [existsb orb]; rewrite knext_at; reflexivity|].
    change (tNOT =? tCHAR_CONST) with false. change (tNOT =? tINT_CONST) with false. change (tNOT =? tBOOLEAN_CONST) with false.
    change (tNOT =? tREAL_CONST) with false. change (tNOT =? tSTRING_CONST) with false. change (tNOT =? sSTRING_CONST) with false.
    change (tNOT =? tLBRACKET) with false. change (tNOT =? tNOT) with true. cbn [orb].
    eapply ev_bind; [exact E|]. cbn [ktok st_at]. rewrite L. cbn [negb kerror_if]. apply ev_const.
  - (* [] *) intros a b A B lo v V Gd c rest t0 i0 l. cbn [fval fgood] in V, Gd. apply bind_some in V. destruct V as (m & M & V). apply some_inv in V. subst v.
    destruct (constructor_run [] [] a b lo m c rest t0 i0 l A B (or_introl (conj eq_refl eq_refl)) M Gd) as (l' & N & E & R).
    exists tSET_CONST, i0, l'. split; [split; [reflexivity|exact R]|]. cbn [app].
    eapply ev_S; [intros n; rewrite const_factor_S; cbv zeta; rewrite ktoken_at, A; reflexivity|].
    change (tLBRACKET =? tLBRACKET) with true. cbv iota. exists N. exact E.
  - (* set *) intros a ts xs b A Gs B lo v V Gd c rest t0 i0 l. cbn [fval fgood] in V, Gd. apply bind_some in V. destruct V as (m & M & V). apply some_inv in V. subst v.
    destruct (constructor_run ts xs a b lo m c rest t0 i0 l A B (or_intror Gs) M Gd) as (l' & N & E & R).
    exists tSET_CONST, i0, l'. split; [split; [reflexivity|exact R]|]. cbn [app]. rewrite <- app_assoc. cbn [app].
    eapply ev_S; [intros n; rewrite const_factor_S; cbv zeta; rewrite ktoken_at, A; reflexivity|].
    change (tLBRACKET =? tLBRACKET) with true. cbv iota. exists N. exact E.
  - (* function *) intros a f b ts e d A B G IH D lo v V Gd c rest t0 i0 l. cbn [fval fgood] in V, Gd. apply bind_some in V. destruct V as (w & W & V).
    apply andb_true_iff in Gd. destruct Gd as (Gd & Gf). rewrite W in Gf.
    destruct (IH 0 w W Gd c (d :: rest) t0 i0 l (paren_ended _ _ D)) as (t1 & i1 & l1 & R & E).
    destruct (function_run lo c a f b ts d rest t0 i0 l w v t1 i1 l1 (fun n => const_expression n 0) A B D E R V Gf) as (t' & i' & l' & R' & E').
    exists t', i', l'. split; [exact R'|]. cbn [app]. rewrite <- app_assoc. cbn [app].
    eapply ev_S; [intros n; rewrite const_factor_S; cbv zeta; rewrite ktoken_at, (proj1 A); reflexivity|]. exact E'.
  - (* factor *) intros ts f G IH lo v V Gd c rest t0 i0 l. cbn [tval_of tgood] in V, Gd.
    destruct (IH lo v V Gd c rest t0 i0 l) as (t1 & i1 & l1 & R & E). exists t1, i1, t1, i1, l1. split; [exact R|]. intros r H.
    eapply ev_S; [intros n; rewrite const_term_S; reflexivity|]. eapply ev_bind; [exact E|]. exact H.
  - (* mul *) intros ts t a o us f Gt IHt A Gf IHf lo v V Gd c rest t0 i0 l. cbn [tval_of tgood] in V, Gd.
    apply bind_some in V. destruct V as (x & X & V). apply bind_some in V. destruct V as (y & Y & V).
    apply andb_true_iff in Gd. destruct Gd as (Gd & Gs). apply andb_true_iff in Gd. destruct Gd as (Gd1 & Gd2). rewrite X in Gs. apply negb_true_iff in Gs.
    destruct (IHt lo x X Gd1 c (a :: us ++ rest) t0 i0 l) as (t1 & i1 & tx & ix & l1 & R1 & E1).
    destruct (IHf lo y Y Gd2 c rest tx ix l1) as (t2 & i2 & l2 & R2 & E2).
    destruct (mul_run lo o x y v t1 i1 l1 t2 i2 l2 a V Gs A R1 R2) as (M & -> & Ns & i & Mi & R).
    exists t1, i, t1, i2, l2. split; [exact R|]. intros r H. rewrite <- app_assoc. cbn [app]. apply E1.
    eapply ev_S; [intros n; rewrite const_factors_S; cbv zeta; rewrite ktoken_at, M, knext_at; reflexivity|].
    eapply ev_bind; [exact E2|]. cbn [ktok kint st_at]. rewrite Z.eqb_refl, Ns. cbn [negb kerror_if kint st_at]. rewrite Mi. cbn [bindi]. exact H.
  - (* term *) intros ts t G IH lo v V Gd c rest t0 i0 l St. cbn [sval sgood] in V, Gd. apply bind_some in V. destruct V as (x & X & V). cbn in V. apply some_inv in V. subst v.
    destruct (IH lo x X Gd c rest t0 i0 l) as (t1 & i1 & tx & ix & l1 & R1 & E1). exists t1, i1, l1, t1, i1, l1. split; [exact R1|]. split; [reflexivity|]. intros r H.
    destruct (term_starts _ _ G) as (u & us & -> & N1 & N2).
    eapply ev_S; [intros n; rewrite const_simple_S; cbv zeta; cbn [app]; rewrite ktoken_at; replace (tk u =? tPLUS) with false by lia; replace (tk u =? tMINUS) with false by lia; cbn [orb andb]; reflexivity|].
    eapply ev_bind; [apply E1, factors_stop, St|]. cbn [ktok kint kset st_at bindi]. exact H.
  - (* + *) intros a ts t A G IH lo v V Gd c rest t0 i0 l St. cbn [sval sgood] in V, Gd. apply bind_some in V. destruct V as (x & X & V).
    destruct x as [x|x|x|x]; try discriminate V. cbn in V. apply some_inv in V. subst v.
    destruct (IH lo _ X Gd c rest t0 i0 l) as (t1 & i1 & tx & ix & l1 & R1 & E1). exists t1, i1, l1, t1, i1, l1. split; [exact R1|]. split; [reflexivity|]. intros r H.
    cbn in R1. destruct R1 as (-> & ->).
    eapply ev_S; [intros n; rewrite const_simple_S; cbv zeta; cbn [app]; rewrite ktoken_at, A, knext_at; reflexivity|].
    eapply ev_bind; [apply E1, factors_stop, St|]. cbn [ktok kint kset st_at]. exact H.
  - (* - *) intros a ts t A G IH lo v V Gd c rest t0 i0 l St. cbn [sval sgood] in V, Gd. apply bind_some in V. destruct V as (x & X & V).
    destruct x as [x|x|x|x]; try discriminate V. cbn [value_sign] in V. apply int_value_inv in V. destruct V as (-> & I).
    destruct (IH lo _ X Gd c rest t0 i0 l) as (t1 & i1 & tx & ix & l1 & R1 & E1). exists tINT_CONST, (- x), l1, tINT_CONST, x, l1. split; [split; reflexivity|]. split; [reflexivity|]. intros r H.
    cbn in R1. destruct R1 as (-> & ->).
    eapply ev_S; [intros n; rewrite const_simple_S; cbv zeta; cbn [app]; rewrite ktoken_at, A, knext_at; reflexivity|].
    eapply ev_bind; [apply E1, factors_stop, St|]. cbn [ktok kint kset st_at].
    change (tMINUS =? tPLUS) with false. change (tMINUS =? tMINUS) with true. change (tINT_CONST =? tINT_CONST) with true. cbn [orb andb negb]. rewrite I. cbn [bindi]. exact H.
  - (* add *) intros ts s a o us t Gs IHs A Gt IHt lo v V Gd c rest t0 i0 l St. cbn [sval sgood] in V, Gd.
    apply bind_some in V. destruct V as (x & X & V). apply bind_some in V. destruct V as (y & Y & V).
    apply andb_true_iff in Gd. destruct Gd as (Gd & Gg). apply andb_true_iff in Gd. destruct Gd as (Gd1 & Gd2). rewrite X in Gg.
    destruct (IHs lo x X Gd1 c (a :: us ++ rest) t0 i0 l) as (t1 & i1 & l0 & tx & ix & l1 & R1 & L1 & E1).
    { unfold stops_mul. cbn [hd]. rewrite A. destruct o; cbn; intuition discriminate. }
    destruct (IHt lo y Y Gd2 c rest tx ix l1) as (t2 & i2 & tz & iz & l2 & R2 & E2).
    assert (E2' := E2 _ (factors_stop lo t2 i2 c rest tz iz l2 St)). clear E2.
    assert (Go : forall t' i' l', is_add_constant (tk a) t1 = true -> t2 = t1 -> t' = t1 ->
      (if t1 =? tINT_CONST then int32 (if tk a =? tPLUS then i1 + i2 else i1 - i2) = Some i' /\ l' = l2
       else if t1 =? tBOOLEAN_CONST then i' = Z.lor i1 i2 /\ l' = l2
       else i' = i1 /\ l' = (if tk a =? tPLUS then set_union else if tk a =? tMINUS then set_difference else set_symmetric) l0 l2) ->
      forall r, ev (fun n => const_terms n lo t' i' l0 (st_at c rest t2 i2 l')) r ->
      ev (fun n => const_simple n lo (st_at c ((ts ++ a :: us) ++ rest) t0 i0 l)) r).
    { intros t' i' l' Ia -> -> Q r H. rewrite <- app_assoc. cbn [app]. apply E1.
      eapply ev_S; [intros n; rewrite const_terms_S; cbv zeta; rewrite ktoken_at, Ia, knext_at; reflexivity|].
      eapply ev_bind; [exact E2'|]. cbn [ktok kint kset st_at]. rewrite Z.eqb_refl. cbn [negb kerror_if].
      destruct (t1 =? tINT_CONST).
      - destruct Q as (Q & ->). cbn [kint st_at]. rewrite Q. cbn [bindi]. exact H.
      - destruct (t1 =? tBOOLEAN_CONST); destruct Q as (-> & ->); exact H. }
    unfold spells_cadd in A. rewrite A in Go. clear E1 E2' IHs IHt.
    destruct o; destruct x as [x|x|x|x]; try discriminate V; destruct y as [y|y|y|y]; try discriminate V; try discriminate Gg;
      cbn [value_cadd] in V; cbn [represents] in R1, R2; destruct R1 as (-> & R1), R2 as (-> & R2).
    + apply int_value_inv in V. destruct V as (-> & I). subst i1 i2. exists tINT_CONST, (x + y), l0, tINT_CONST, y, l2. split; [split; reflexivity|]. split; [exact Logic.I|].
      apply Go; try reflexivity. split; [exact I|reflexivity].
    + apply some_inv in V. subst v. destruct s as [sg tt|]; [|discriminate Gg]. subst l0.
      exists tSET_CONST, i1, l1, tSET_CONST, i2, (set_union l1 l2). split; [split; [reflexivity|apply union_ok; assumption]|]. split; [exact Logic.I|].
      apply Go; try reflexivity. split; reflexivity.
    + apply int_value_inv in V. destruct V as (-> & I). subst i1 i2. exists tINT_CONST, (x - y), l0, tINT_CONST, y, l2. split; [split; reflexivity|]. split; [exact Logic.I|].
      apply Go; try reflexivity. split; [exact I|reflexivity].
    + apply some_inv in V. subst v i1 i2. exists tBOOLEAN_CONST, (if x || y then -1 else 0), l0, tBOOLEAN_CONST, (if y then -1 else 0), l2. split; [split; reflexivity|]. split; [exact Logic.I|].
      apply Go; try reflexivity. destruct x, y; split; reflexivity.
    + apply some_inv in V. subst v. destruct s as [sg tt|]; [|discriminate Gg]. subst l0.
      exists tSET_CONST, i1, l1, tSET_CONST, i2, (set_symmetric l1 l2). split; [split; [reflexivity|apply symmetric_ok; assumption]|]. split; [exact Logic.I|].
      apply Go; try reflexivity. split; reflexivity.
  - (* simple *) intros ts s G IH lo v V Gd c rest t0 i0 l E. cbn [cval cgood] in V, Gd. destruct (ended_stops _ E) as (S1 & S2 & S3).
    destruct (IH lo v V Gd c rest t0 i0 l S1) as (t1 & i1 & l0 & tx & ix & l1 & R & _ & E1).
    exists t1, i1, l1. split; [exact R|].
    eapply ev_S; [intros n; rewrite const_expression_S; reflexivity|]. eapply ev_bind; [apply E1, terms_stop, S2|].
    cbv zeta. rewrite ktoken_hd, S3. apply ev_const.
  - (* relation *) intros ts s1 a r us s2 _ _ _ _ _ lo v _ Gd. discriminate Gd.
Qed.
