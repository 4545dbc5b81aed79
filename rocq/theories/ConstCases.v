(** The statements about constant expressions, and what contradicts them. *)

From Coq Require Import ZArith Bool List Lia ZifyBool.
From Verif Require Import Words State ExprModel StmtModel ExprSpec ExprParse ExprTotal ExprCases ConstModel ConstSpec ConstBits ConstParts ConstMain ConstTotal ConstAccept.
Import ListNotations.
Open Scope Z_scope.

(** ** Ranges *)

(** The words of the set [lo+a..lo+b], if the array is not left *)
Lemma add_range_shift lo a b l : 0 <= a < 64 -> 0 <= b < 64 -> add_range (lo + a) (lo + b) lo l = add_range a b 0 l.
Proof.
  intros A B. unfold add_range. replace (lo + a - lo) with (a - 0) by lia. replace (lo + b - lo) with (b - 0) by lia.
  replace (lo + b - (lo + a) + 1) with (b - a + 1) by lia. reflexivity.
Qed.
Definition range_right (a b : Z) : bool :=
  match add_range a b 0 [0; 0; 0; 0] with
  | Some l => forallb (fun k => eqb (Z.testbit (nth (Z.to_nat (k / 16)) l 0) (k mod 16)) ((a <=? k) && (k <=? b))) (upto 64)
  | None => false
  end.
Lemma range_exact a b : 0 <= a < 64 -> 0 <= b < 64 -> range_right a b = good_range a b.
Proof.
  intros A B. apply eqb_prop. apply (pairs_checked 64 64 (fun a b => eqb (range_right a b) (good_range a b))); [vm_compute; reflexivity|exact A|exact B].
Qed.

Definition range_tokens (lo a b : Z) : list tok := [kt tLBRACKET; nt (lo + a); kt tSUBRANGE; nt (lo + b); kt tRBRACKET].
Definition range_expr (lo a b : Z) : cexpr := KSimple (KTerm Unsigned (KFactor (KSet [Range (LInt (lo + a)) (LInt (lo + b))]))).
Lemma range_syntax lo a b : gcexpr (range_tokens lo a b) (range_expr lo a b).
Proof.
  apply g_csimple, g_cterm, g_cfactor. apply (g_set _ [nt (lo + a); kt tSUBRANGE; nt (lo + b)]); [reflexivity| |reflexivity].
  apply g_last, g_range; [split; reflexivity|reflexivity|split; reflexivity|reflexivity].
Qed.

Lemma range_factor lo a b c rest t i l n : 0 <= lo -> lo + 63 <= 65535 -> 0 <= a < 64 -> 0 <= b < 64 ->
  const_factor (S (S n)) lo (st_at c (range_tokens lo a b ++ rest) t i l) =
  match add_range a b 0 [0; 0; 0; 0] with Some l' => KDone (st_at c rest tSET_CONST i l') | None => KUndefined end.
Proof.
  intros L1 L2 A B. rewrite const_factor_S. unfold range_tokens. cbn [app]. rewrite ktoken_at.
  change (existsb _ _) with false. cbv iota. change (existsb _ _) with false. cbv iota. change (tk (kt tLBRACKET) =? tLBRACKET) with true. cbv iota.
  unfold set_constructor. cbv zeta. rewrite with_set_at, knext_at, ktoken_at. change (tk (nt (lo + a)) =? tRBRACKET) with false. cbv iota.
  cbn [subsets]. unfold subset. cbv zeta. rewrite ktoken_at, kcur_at, knext_at, ktoken_at, knext_at, ktoken_at, kcur_at.
  change (ordinal_token (tk (nt (lo + a)))) with true. change (tk (kt tSUBRANGE) =? tSUBRANGE) with true.
  change (tk (nt (lo + b)) =? tk (nt (lo + a))) with true. cbn [negb]. cbv iota. cbn [kset st_at tval nt].
  replace (u16 (lo + a)) with (lo + a) by (unfold u16; lia). replace (u16 (lo + b)) with (lo + b) by (unfold u16; lia).
  rewrite add_range_shift by assumption. destruct (add_range a b 0 _); reflexivity.
Qed.
Lemma range_done lo a b c rest t i l s' : ended rest -> 0 <= lo -> lo + 63 <= 65535 -> 0 <= a < 64 -> 0 <= b < 64 -> forall n,
  const_expression n lo (st_at c (range_tokens lo a b ++ rest) t i l) = KDone s' ->
  exists l', add_range a b 0 [0; 0; 0; 0] = Some l' /\ s' = st_at c rest tSET_CONST i l'.
Proof.
  intros En L1 L2 A B n E. rewrite <- (const_fuel n (S (S (S (S (S n)))))) in E by (lia || (rewrite E; discriminate)).
  destruct (ended_stops rest En) as (Sm & Sa & Sr).
  assert (K : ktoken (st_at c (range_tokens lo a b ++ rest) t i l) = tLBRACKET) by reflexivity.
  rewrite const_expression_S, const_simple_S in E. cbv zeta in E. rewrite K in E.
  change (tLBRACKET =? tPLUS) with false in E. change (tLBRACKET =? tMINUS) with false in E. cbn [orb andb] in E. cbv iota in E.
  rewrite const_term_S, (range_factor lo a b c rest t i l n) in E by assumption.
  destruct (add_range a b 0 [0; 0; 0; 0]) as [l'|]; [|discriminate E]. exists l'. split; [reflexivity|].
  cbn [bindk] in E. rewrite const_factors_S in E. cbv zeta in E. rewrite ktoken_hd, mul_stops in E by exact Sm. cbn [bindk bindi] in E.
  rewrite const_terms_S in E. cbv zeta in E. rewrite constant_at, ktoken_hd, add_stops in E by exact Sa. cbn [bindi bindk] in E.
  rewrite constant_at, ktoken_hd, Sr in E. apply kdone_inv in E. exact E.
Qed.
Lemma ranges : forall lo a b s rest, 0 <= lo -> lo + 63 <= 65535 -> 0 <= a < 64 -> 0 <= b < 64 ->
  toks (kc s) = range_tokens lo a b ++ rest -> ended rest ->
  (exists n s', const_expression n lo s = KDone s' /\ result_is lo (VS (fun z => (lo + a <=? z) && (z <=? lo + b))) s') <-> good_range a b = true.
Proof.
  intros lo a b s rest L1 L2 A B T En. split.
  - intros (n & s' & E & R). rewrite (st_self s _ T) in E. apply range_done in E; try assumption. destruct E as (l' & E & ->). destruct R as (_ & _ & _ & R).
    rewrite <- range_exact by assumption. unfold range_right. rewrite E. apply forallb_forall. intros k I. unfold upto in I. apply in_map_iff in I.
    destruct I as (k0 & <- & I). apply in_seq in I. rewrite R by lia. apply eqb_true_iff. f_equal; [apply Bool.eq_iff_eq_true; lia|apply Bool.eq_iff_eq_true; lia].
  - intros G. exists (4 * length (toks (kc s)) + 4)%nat. destruct (const_value _ _ lo (VS (fun z => ((lo + a <=? z) && (z <=? lo + b)) || false)) (range_syntax lo a b)) with (s := s) (rest := rest) (n := (4 * length (toks (kc s)) + 4)%nat) as (s' & E & _ & R).
    + cbn. unfold element_of, bounds, ordinal. cbn. unfold element_of. cbn. replace (in_base lo (lo + a)) with true by (unfold in_base; lia). replace (in_base lo (lo + b)) with true by (unfold in_base; lia). reflexivity.
    + cbn. unfold element_of. cbn. replace (in_base lo (lo + a)) with true by (unfold in_base; lia). replace (in_base lo (lo + b)) with true by (unfold in_base; lia). cbn.
      replace (lo + a - lo) with a by lia. replace (lo + b - lo) with b by lia. rewrite G. reflexivity.
    + exact T.
    + exact En.
    + lia.
    + exists s'. split; [exact E|]. destruct R as (R1 & R2 & R3 & R4). split; [exact R1|]. split; [exact R2|]. split; [exact R3|].
      intros k K. rewrite R4 by exact K. apply orb_false_r.
Qed.

(** ** Cases *)

Definition k0 (ts : list tok) : cst := mkK (start (ts ++ [kt tSEMICOLON])) 0 0 [0; 0; 0; 0].
Definition ft (f : Z) := mkTok tSTDFUNC 0 f nosym 1.
Definition fac (f : cfactor) : csimple := KTerm Unsigned (KFactor f).
Definition lit (a : clit) : csimple := fac (KLit a).
Definition call (f : Z) (ts : list tok) : list tok := ft f :: kt tLPAREN :: ts ++ [kt tRPAREN].
Definition brackets (ts : list tok) : list tok := kt tLBRACKET :: ts ++ [kt tRBRACKET].

Lemma gint n : gcfactor [nt n] (KLit (LInt n)).
Proof. apply g_lit; [split; reflexivity|discriminate]. Qed.
Lemma gchar n : gcfactor [ct n] (KLit (LChar n)).
Proof. apply g_lit; [split; reflexivity|discriminate]. Qed.
Lemma gbool b : gcfactor [bt b] (KLit (LBool b)).
Proof. apply g_lit; [split; reflexivity|discriminate]. Qed.
Lemma gfac ts f : gcfactor ts f -> gcsimple ts (fac f).
Proof. intros H. apply g_cterm, g_cfactor, H. Qed.
Lemma gcall f g ts s : spells_fun (ft f) g -> gcsimple ts s -> gcfactor (call f ts) (KFun g (KSimple s)).
Proof. intros F H. apply g_fun; [exact F|reflexivity|apply g_csimple, H|reflexivity]. Qed.
Lemma gone n : gsubset [nt n] (One (LInt n)).
Proof. apply g_one. split; reflexivity. Qed.
Lemma gtwo m n : gsubset [nt m; kt tSUBRANGE; nt n] (Range (LInt m) (LInt n)).
Proof. apply g_range; [split; reflexivity|reflexivity|split; reflexivity|reflexivity]. Qed.
Lemma gbrackets ts l : gsubsets ts l -> gcfactor (brackets ts) (KSet l).
Proof. intros H. apply g_set; [reflexivity|exact H|reflexivity]. Qed.

(** - 3 * 5 + Sqr(4) mod 7 *)
Definition ex_const_tokens := kt tMINUS :: nt 3 :: kt tMUL :: nt 5 :: kt tPLUS :: call txSQR [nt 4] ++ [kt tMOD; nt 7].
Definition ex_const := KSimple (KAdd (KTerm Negative (KMul (KFactor (KLit (LInt 3))) Times (KLit (LInt 5)))) CPlus
  (KMul (KFactor (KFun Sqr (KSimple (lit (LInt 4))))) Mod (KLit (LInt 7)))).
Lemma ex_const_syntax : gcexpr ex_const_tokens ex_const.
Proof.
  apply g_csimple. apply (g_cadd [kt tMINUS; nt 3; kt tMUL; nt 5] _ _ _ (call txSQR [nt 4] ++ [kt tMOD; nt 7])); [|reflexivity|].
  - apply (g_cminus _ [nt 3; kt tMUL; nt 5]); [reflexivity|]. apply (g_cmul [nt 3] _ _ _ [nt 5]); [apply g_cfactor, gint|reflexivity|apply gint].
  - apply (g_cmul (call txSQR [nt 4]) _ _ _ [nt 7]); [|reflexivity|apply gint]. apply g_cfactor, gcall; [split; reflexivity|apply gfac, gint].
Qed.
(** [1, 17..20] + [40, 50..60] *)
Definition ex_set_tokens := brackets ([nt 1] ++ kt tCOMMA :: [nt 17; kt tSUBRANGE; nt 20]) ++ kt tPLUS :: brackets ([nt 40] ++ kt tCOMMA :: [nt 50; kt tSUBRANGE; nt 60]).
Definition ex_set := KSimple (KAdd (fac (KSet [One (LInt 1); Range (LInt 17) (LInt 20)])) CPlus (KFactor (KSet [One (LInt 40); Range (LInt 50) (LInt 60)]))).
Lemma ex_set_syntax : gcexpr ex_set_tokens ex_set.
Proof.
  apply g_csimple, g_cadd; [apply gfac|reflexivity|apply g_cfactor]; apply gbrackets, g_more; try reflexivity; try apply gone; apply g_last, gtwo.
Qed.

Lemma or_refuted : exists ts e s', gcexpr ts e /\ cval 0 e = Some (VI 7) /\ e = KSimple (KAdd (lit (LInt 4)) COr (KFactor (KLit (LInt 3)))) /\
  const_expression 60 0 (k0 ts) = KDone s' /\ errs (kc s') = [] /\ toks (kc s') = [kt tSEMICOLON] /\ ktok s' = tINT_CONST /\ kint s' = 1.
Proof.
  exists ([nt 4] ++ kt tOR :: [nt 3]), (KSimple (KAdd (lit (LInt 4)) COr (KFactor (KLit (LInt 3))))). eexists.
  split; [apply g_csimple, g_cadd; [apply gfac, gint|reflexivity|apply g_cfactor, gint]|]. split; [reflexivity|]. split; [reflexivity|].
  split; [vm_compute; reflexivity|]. vm_compute. auto.
Qed.
Lemma relation_refuted : exists ts e s', gcexpr ts e /\ cval 0 e = Some (VB true) /\ e = KRel (lit (LInt 3)) (CRel Less) (lit (LInt 4)) /\
  const_expression 60 0 (k0 ts) = KDone s' /\ errs (kc s') <> [].
Proof.
  exists ([nt 3] ++ kt tLT :: [nt 4]), (KRel (lit (LInt 3)) (CRel Less) (lit (LInt 4))). eexists.
  split; [apply g_crel; [apply gfac, gint|reflexivity|apply gfac, gint]|]. split; [reflexivity|]. split; [reflexivity|].
  split; [vm_compute; reflexivity|]. vm_compute. discriminate.
Qed.
Lemma odd_refuted : exists ts e s', gcexpr ts e /\ cval 0 e = Some (VB true) /\ e = KSimple (fac (KFun Odd (KSimple (lit (LInt 3))))) /\
  const_expression 60 0 (k0 ts) = KDone s' /\ errs (kc s') <> [].
Proof.
  exists (call txODD [nt 3]), (KSimple (fac (KFun Odd (KSimple (lit (LInt 3)))))). eexists.
  split; [apply g_csimple, gfac, gcall; [split; reflexivity|apply gfac, gint]|]. split; [reflexivity|]. split; [reflexivity|].
  split; [vm_compute; reflexivity|]. vm_compute. discriminate.
Qed.
Lemma ord_refuted : exists ts e s', gcexpr ts e /\ cval 0 e = Some (VI 1) /\ e = KSimple (fac (KFun Ord (KSimple (lit (LBool true))))) /\
  const_expression 60 0 (k0 ts) = KDone s' /\ errs (kc s') = [] /\ toks (kc s') = [kt tSEMICOLON] /\ ktok s' = tINT_CONST /\ kint s' = -1.
Proof.
  exists (call txORD [bt true]), (KSimple (fac (KFun Ord (KSimple (lit (LBool true)))))). eexists.
  split; [apply g_csimple, gfac, gcall; [split; reflexivity|apply gfac, gbool]|]. split; [reflexivity|]. split; [reflexivity|].
  split; [vm_compute; reflexivity|]. vm_compute. auto.
Qed.
Lemma succ_refuted : exists ts e s', gcexpr ts e /\ cval 0 e = Some (VB true) /\ e = KSimple (fac (KFun Succ (KSimple (lit (LBool false))))) /\
  const_expression 60 0 (k0 ts) = KDone s' /\ errs (kc s') = [] /\ toks (kc s') = [kt tSEMICOLON] /\ ktok s' = tBOOLEAN_CONST /\
  kint s' = 1 /\ ~ result_is 0 (VB true) s'.
Proof.
  exists (call txSUCC [bt false]), (KSimple (fac (KFun Succ (KSimple (lit (LBool false)))))). eexists.
  split; [apply g_csimple, gfac, gcall; [split; reflexivity|apply gfac, gbool]|]. split; [reflexivity|]. split; [reflexivity|].
  split; [vm_compute; reflexivity|]. vm_compute. repeat split; try reflexivity. intros (_ & H). discriminate H.
Qed.
Lemma sign_refuted : exists ts e, gcexpr ts e /\ e = KSimple (KTerm Negative (KFactor (KLit (LChar 97)))) /\ clax e = None /\
  const_expression 60 0 (k0 ts) = KUndefined.
Proof.
  exists [kt tMINUS; ct 97], (KSimple (KTerm Negative (KFactor (KLit (LChar 97))))).
  split; [apply g_csimple, g_cminus; [reflexivity|apply g_cfactor, gchar]|]. split; [reflexivity|]. split; [reflexivity|]. vm_compute. reflexivity.
Qed.

Lemma difference_refuted : exists ts e f s', gcexpr ts e /\ cval 0 e = Some (VS f) /\ f 1 = true /\
  e = KSimple (KAdd (fac (KSet [One (LInt 1); One (LInt 2)])) CMinus (KFactor (KSet [One (LInt 2)]))) /\
  const_expression 60 0 (k0 ts) = KDone s' /\ errs (kc s') = [] /\ toks (kc s') = [kt tSEMICOLON] /\ ktok s' = tSET_CONST /\ kset s' = [0; 0; 0; 0].
Proof.
  exists (brackets ([nt 1] ++ kt tCOMMA :: [nt 2]) ++ kt tMINUS :: brackets [nt 2]).
  exists (KSimple (KAdd (fac (KSet [One (LInt 1); One (LInt 2)])) CMinus (KFactor (KSet [One (LInt 2)])))). eexists. eexists.
  split; [apply g_csimple, g_cadd; [apply gfac, gbrackets, g_more; [apply gone|reflexivity|apply g_last, gone]|reflexivity|apply g_cfactor, gbrackets, g_last, gone]|].
  split; [reflexivity|]. split; [reflexivity|]. split; [reflexivity|]. split; [vm_compute; reflexivity|]. vm_compute. auto.
Qed.
Lemma sum_refuted : exists ts e f s', gcexpr ts e /\ cval 0 e = Some (VS f) /\ f 2 = true /\
  e = KSimple (KAdd (KAdd (fac (KSet [One (LInt 1)])) CPlus (KFactor (KSet [One (LInt 2)]))) CPlus (KFactor (KSet [One (LInt 3)]))) /\
  const_expression 60 0 (k0 ts) = KDone s' /\ errs (kc s') = [] /\ toks (kc s') = [kt tSEMICOLON] /\ ktok s' = tSET_CONST /\ kset s' = [10; 0; 0; 0].
Proof.
  exists ((brackets [nt 1] ++ kt tPLUS :: brackets [nt 2]) ++ kt tPLUS :: brackets [nt 3]).
  exists (KSimple (KAdd (KAdd (fac (KSet [One (LInt 1)])) CPlus (KFactor (KSet [One (LInt 2)]))) CPlus (KFactor (KSet [One (LInt 3)])))). eexists. eexists.
  split. { apply g_csimple, g_cadd; [apply g_cadd; [apply gfac|reflexivity|apply g_cfactor]|reflexivity|apply g_cfactor]; apply gbrackets, g_last, gone. }
  split; [reflexivity|]. split; [reflexivity|]. split; [reflexivity|]. split; [vm_compute; reflexivity|]. vm_compute. auto.
Qed.
Lemma intersection_refuted : exists ts e f s', gcexpr ts e /\ cval 0 e = Some (VS f) /\
  e = KSimple (KTerm Unsigned (KMul (KFactor (KSet [One (LInt 1)])) Times (KSet [One (LInt 1)]))) /\
  const_expression 60 0 (k0 ts) = KDone s' /\ errs (kc s') <> [].
Proof.
  exists (brackets [nt 1] ++ kt tMUL :: brackets [nt 1]).
  exists (KSimple (KTerm Unsigned (KMul (KFactor (KSet [One (LInt 1)])) Times (KSet [One (LInt 1)])))). eexists. eexists.
  split. { apply g_csimple, g_cterm, g_cmul; [apply g_cfactor|reflexivity|]; apply gbrackets, g_last, gone. }
  split; [reflexivity|]. split; [reflexivity|]. split; [vm_compute; reflexivity|]. vm_compute. discriminate.
Qed.
Lemma overwrite_refuted : exists ts e f s', gcexpr ts e /\ cval 0 e = Some (VS f) /\ f 5 = true /\
  e = KSimple (fac (KSet [One (LInt 5); Range (LInt 1) (LInt 3)])) /\
  const_expression 60 0 (k0 ts) = KDone s' /\ errs (kc s') = [] /\ toks (kc s') = [kt tSEMICOLON] /\ ktok s' = tSET_CONST /\ kset s' = [14; 0; 0; 0].
Proof.
  exists (brackets ([nt 5] ++ kt tCOMMA :: [nt 1; kt tSUBRANGE; nt 3])), (KSimple (fac (KSet [One (LInt 5); Range (LInt 1) (LInt 3)]))). eexists. eexists.
  split. { apply g_csimple, gfac, gbrackets, g_more; [apply gone|reflexivity|apply g_last, gtwo]. }
  split; [reflexivity|]. split; [reflexivity|]. split; [reflexivity|]. split; [vm_compute; reflexivity|]. vm_compute. auto.
Qed.
Lemma outside_refuted : exists ts us e e', gcexpr ts e /\ gcexpr us e' /\ clax e = Some tSET_CONST /\ clax e' = Some tSET_CONST /\
  e = KSimple (fac (KSet [One (LInt 64)])) /\ e' = KSimple (fac (KSet [One (LBool true)])) /\
  const_expression 60 0 (k0 ts) = KUndefined /\ const_expression 60 0 (k0 us) = KUndefined.
Proof.
  exists (brackets [nt 64]), (brackets [bt true]), (KSimple (fac (KSet [One (LInt 64)]))), (KSimple (fac (KSet [One (LBool true)]))).
  split; [apply g_csimple, gfac, gbrackets, g_last, gone|]. split; [apply g_csimple, gfac, gbrackets, g_last, g_one; split; reflexivity|].
  repeat split; vm_compute; reflexivity.
Qed.

(** ** What is accepted *)

(** Operands less separators: at most one *)
Definition wt (t : tok) : Z :=
  if existsb (Z.eqb (tk t)) [tINT_CONST; tCHAR_CONST; tBOOLEAN_CONST; sSCALAR_OBJECT] then 1
  else if existsb (Z.eqb (tk t)) [tPLUS; tMINUS; tOR; tSYMDIFF; tMUL; tDIV; tMOD; tAND; tSHL; tSHR; tCOMMA; tSUBRANGE; tEQ; tNE; tLT; tLE; tGT; tGE; tIN] then -1
  else 0.
Definition weight (l : list tok) : Z := fold_right (fun t n => wt t + n) 0 l.
Lemma weight_app a b : weight (a ++ b) = weight a + weight b.
Proof. induction a as [|x a IH]; [reflexivity|]. cbn [app weight fold_right]. fold (weight (a ++ b)). fold (weight a). lia. Qed.
Lemma weight_cons x l : weight (x :: l) = wt x + weight l.
Proof. reflexivity. Qed.
Lemma weight_subsets ts l : gsubsets ts l -> weight ts <= 1.
Proof.
  assert (L : forall t a, spells_lit t a -> wt t = 1) by (intros t [ | | | ] H; cbn in H; unfold wt; [destruct H as (-> & _)|destruct H as (-> & _)|destruct H as (-> & _)|rewrite H]; reflexivity).
  assert (S : forall ts x, gsubset ts x -> weight ts <= 1).
  { intros us x []; rewrite ?weight_cons; cbn [weight fold_right]; repeat match goal with H : spells_lit _ _ |- _ => apply L in H; rewrite H end; [lia|].
    replace (wt d) with (-1) by (unfold wt; rewrite H0; reflexivity). lia. }
  induction 1 as [us x H|us x d vs l H D _ IH]; [apply S in H; exact H|]. apply S in H. rewrite weight_app, weight_cons.
  replace (wt d) with (-1) by (unfold wt; rewrite D; reflexivity). lia.
Qed.
Lemma weight_le : (forall ts f, gcfactor ts f -> weight ts <= 1) /\ (forall ts t, gcterm ts t -> weight ts <= 1) /\
  (forall ts s, gcsimple ts s -> weight ts <= 1) /\ (forall ts e, gcexpr ts e -> weight ts <= 1).
Proof.
  assert (Q : forall x k, tk x = k -> wt x = wt (kt k)) by (intros x k <-; reflexivity).
  apply constants_ind; intros; rewrite ?weight_cons, ?weight_app, ?weight_cons; cbn [weight fold_right]; repeat match goal with H : weight _ <= 1 |- _ => revert H end;
    repeat match goal with H : tk ?x = ?k |- context [wt ?x] => rewrite (Q x k H) end;
    try match goal with H : gsubsets _ _ |- _ => apply weight_subsets in H; revert H end.
  - destruct a; cbn in s; [destruct s as (S & _)|destruct s as (S & _)|destruct s as (S & _)|destruct n; reflexivity]; rewrite (Q _ _ S); discriminate.
  - change (wt (kt tNOT)) with 0. lia.
  - discriminate.
  - change (wt (kt tLBRACKET)) with 0. change (wt (kt tRBRACKET)) with 0. lia.
  - destruct s as (S & _). rewrite (Q _ _ S). change (wt (kt tSTDFUNC)) with 0. change (wt (kt tLPAREN)) with 0. change (wt (kt tRPAREN)) with 0. lia.
  - lia.
  - replace (wt a) with (-1); [lia|]. match goal with H : spells_cmul _ _ |- _ => destruct o; rewrite (Q _ _ H); reflexivity | H : spells_cadd _ _ |- _ => destruct o; rewrite (Q _ _ H); reflexivity end.
  - lia.
  - change (wt (kt tPLUS)) with (-1). lia.
  - change (wt (kt tMINUS)) with (-1). lia.
  - replace (wt a) with (-1); [lia|]. match goal with H : spells_cmul _ _ |- _ => destruct o; rewrite (Q _ _ H); reflexivity | H : spells_cadd _ _ |- _ => destruct o; rewrite (Q _ _ H); reflexivity end.
  - lia.
  - replace (wt a) with (-1); [lia|]. match goal with H : spells_crel _ _ |- _ => destruct r as [[]|]; rewrite (Q _ _ H); reflexivity end.
Qed.

Lemma odd_accepted_refuted : exists ts s', Forall wf_tok (ts ++ [kt tSEMICOLON]) /\ ts = call txODD [nt 3; nt 4] /\
  const_expression 60 0 (k0 ts) = KDone s' /\ errs (kc s') = [] /\ toks (kc s') = [kt tSEMICOLON] /\ ktok s' = tINT_CONST /\ out (kc s') <> [] /\
  forall e, ~ gcexpr ts e.
Proof.
  exists (call txODD [nt 3; nt 4]). eexists. split. { vm_compute. repeat apply Forall_cons; try apply Forall_nil; split; vm_compute; try discriminate; intros [] N; try discriminate; destruct N; auto. }
  split; [reflexivity|]. split; [vm_compute; reflexivity|]. split; [reflexivity|]. split; [reflexivity|]. split; [reflexivity|]. split; [vm_compute; discriminate|].
  intros e G. apply weight_le in G. vm_compute in G. apply G. reflexivity.
Qed.

Lemma real_refuted : exists ts e s', gcexpr ts e /\ e = KSimple (fac (KFun RealFun (KSimple (lit (LInt 16))))) /\ ts = call txSQRT [nt 16] /\ cval 0 e = None /\
  const_expression 60 0 (k0 ts) = KDone s' /\ errs (kc s') = [] /\ toks (kc s') = [kt tSEMICOLON] /\ ktok s' = tINT_CONST /\ kint s' = 16.
Proof.
  exists (call txSQRT [nt 16]), (KSimple (fac (KFun RealFun (KSimple (lit (LInt 16)))))). eexists.
  split; [apply g_csimple, gfac, gcall; [split; [reflexivity|cbn; auto]|apply gfac, gint]|]. split; [reflexivity|]. split; [reflexivity|]. split; [reflexivity|].
  split; [vm_compute; reflexivity|]. vm_compute. auto.
Qed.
