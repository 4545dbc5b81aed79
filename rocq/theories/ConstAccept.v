(** What the compiler accepts as a constant is a constant expression. *)

From Coq Require Import ZArith Bool List Lia ZifyBool.
From Verif Require Import Words State ExprModel StmtModel ExprSpec ExprParse ExprTotal StmtAccept ConstModel ConstSpec ConstParts ConstMain ConstTotal.
Import ListNotations.
Open Scope Z_scope.

Definition wfk (s : cst) : Prop := Forall wf_const (toks (kc s)).
Definition nk (s : cst) : nat := ne (kc s).
(** From [s] to [s'] the tokens [ts] are consumed, and nothing else happens. *)
Definition ate (s s' : cst) (ts : list tok) : Prop := toks (kc s) = ts ++ toks (kc s') /\ kc s' = at_toks (kc s) (toks (kc s')).

Lemma ate_refl s s' : kc s' = kc s -> ate s s' [].
Proof. intros H. unfold ate. rewrite H. split; [reflexivity|]. apply at_self. reflexivity. Qed.
Lemma ate_trans a b c ts us : ate a b ts -> ate b c us -> ate a c (ts ++ us).
Proof.
  intros (A & A') (B & B'). split; [rewrite A, B, app_assoc; reflexivity|]. rewrite B'. cbn [toks at_toks]. rewrite A'. reflexivity.
Qed.
Lemma ate_same a b c ts : ate a b ts -> kc c = kc b -> ate a c ts.
Proof. intros H E. rewrite <- (app_nil_r ts). eapply ate_trans; [exact H|apply ate_refl, E]. Qed.
Lemma ate_nk a b ts : ate a b ts -> nk b = nk a.
Proof. intros (_ & E). unfold nk. rewrite E. reflexivity. Qed.
Lemma ate_wf a b ts : ate a b ts -> wfk a -> wfk b.
Proof. intros (E & _) W. unfold wfk in *. rewrite E in W. apply Forall_app in W. apply W. Qed.
Lemma ate_next s : wfk s -> ktoken s <> 0 -> exists x, ate s (knext s) [x] /\ ktoken s = tk x /\ kcur s = x /\ wf_const x.
Proof.
  intros W T. destruct (at_token (kc s) T) as (x & rest & E1 & E2 & E3 & E4 & E5). exists x. split; [|split; [exact E2|split; [exact E3|]]].
  - unfold ate, knext. cbn. cbn in E4. rewrite E4, E1. split; [reflexivity|]. unfold getToken. cbn in E4. rewrite E1. reflexivity.
  - unfold wfk in W. rewrite E1 in W. inversion W. assumption.
Qed.

Lemma moves_nk a b : moves a b -> (nk a <= nk b)%nat.
Proof. intros (_ & G). apply ne_grows, G. Qed.
Lemma nk_error e s : nk (kerror e s) = S (nk s).
Proof. apply ne_error. Qed.
Lemma nk_error_if b e s : nk (kerror_if b e s) = ((if b then 1 else 0) + nk s)%nat.
Proof. destruct b; [apply nk_error|reflexivity]. Qed.
Lemma nk_next s : nk (knext s) = nk s.
Proof. reflexivity. Qed.
Lemma nk_constant t v s : nk (constant t v s) = nk s.
Proof. reflexivity. Qed.
Lemma nk_set l s : nk (with_set l s) = nk s.
Proof. reflexivity. Qed.

Lemma kdone_inv s s' : KDone s = KDone s' -> s' = s.
Proof. congruence. Qed.
Lemma bindk_inv r k s : bindk r k = KDone s -> exists s1, r = KDone s1 /\ k s1 = KDone s.
Proof. destruct r; cbn; try discriminate. eauto. Qed.
Lemma bindi_inv o k s : bindi o k = KDone s -> exists z, k z = KDone s.
Proof. destruct o; cbn; [eauto|discriminate]. Qed.
Lemma bindl_inv o s1 k s : bindl o s1 k = KDone s -> exists l, k (with_set l s1) = KDone s.
Proof. destruct o; cbn; [eauto|discriminate]. Qed.

Lemma in_eqb x l : existsb (Z.eqb x) l = true -> In x l.
Proof. intros H. apply existsb_exists in H. destruct H as (y & I & E). apply Z.eqb_eq in E. subst. exact I. Qed.

(** ** Set constructors *)

Lemma lit_of x : wf_const x -> ordinal_token (tk x) = true -> exists a, spells_lit x a.
Proof.
  intros ((W & _) & _) H. apply in_eqb in H. destruct H as [H|[H|[H|[H|[]]]]].
  - exists (LInt (tval x)). split; [symmetry; exact H|reflexivity].
  - exists (LChar (tval x)). split; [symmetry; exact H|reflexivity].
  - symmetry in H. destruct (W H) as [V|V]; [exists (LBool true)|exists (LBool false)]; (split; [exact H|exact V]).
  - exists LScalar. symmetry. exact H.
Qed.
Lemma same_of x y a b : spells_lit x a -> spells_lit y b -> tk y = tk x -> same_kind a b = true.
Proof.
  intros A B E. destruct a, b; cbn in *; try reflexivity; exfalso;
    repeat match goal with H : _ /\ _ |- _ => destruct H as (H & _) end; rewrite A, B in E; discriminate E.
Qed.

Lemma ordinal_not_eof t : ordinal_token t = true -> t <> 0.
Proof. intros H ->. discriminate H. Qed.
Lemma subset_accepted lo s s' : subset lo s = KDone s' -> nk s' = nk s -> wfk s -> exists ts x, ate s s' ts /\ gsubset ts x.
Proof.
  unfold subset. cbv zeta. intros E N W. destruct (ordinal_token (ktoken s)) eqn:O; cbn [negb] in E.
  2: { apply kdone_inv in E. subst s'. rewrite nk_error in N. lia. }
  destruct (ate_next s W (ordinal_not_eof _ O)) as (x & A & T & _ & Wx). rewrite T in *. destruct (lit_of x Wx O) as (a & La).
  assert (W1 := ate_wf _ _ _ A W). destruct (Z.eqb_spec (ktoken (knext s)) tSUBRANGE) as [D|D].
  - destruct (ate_next (knext s) W1) as (d & B & Td & _ & _); [rewrite D; discriminate|]. rewrite Td in D.
    destruct (Z.eqb_spec (ktoken (knext (knext s))) (tk x)) as [U|U]; cbn [negb] in E.
    2: { apply kdone_inv in E. subst s'. rewrite nk_error, !nk_next in N. lia. }
    assert (W2 := ate_wf _ _ _ B W1). destruct (ate_next (knext (knext s)) W2) as (y & C & Ty & _ & Wy).
    { rewrite U. apply ordinal_not_eof, O. }
    rewrite Ty in U. destruct (lit_of y Wy) as (b & Lb); [rewrite U; exact O|].
    apply bindl_inv in E. destruct E as (l & E). apply kdone_inv in E. subst s'.
    exists [x; d; y], (Range a b). split.
    + eapply ate_same; [eapply (ate_trans _ _ _ [x; d] [y]); [eapply (ate_trans _ _ _ [x] [d])|]; eassumption|]. reflexivity.
    + apply g_range; [exact La|exact D|exact Lb|]. eapply same_of; eassumption.
  - apply bindl_inv in E. destruct E as (l & E). apply kdone_inv in E. subst s'. exists [x], (One a).
    split; [eapply ate_same; [exact A|reflexivity]|apply g_one, La].
Qed.
Lemma subsets_accepted n lo : forall s s', subsets n lo s = KDone s' -> nk s' = nk s -> wfk s -> exists ts l, ate s s' ts /\ gsubsets ts l.
Proof.
  induction n as [|n IH]; [discriminate|]. intros s s' E N W. cbn [subsets] in E. apply bindk_inv in E. destruct E as (s1 & E1 & E).
  assert (M1 := moves_nk _ _ (subset_moves lo s s1 E1)).
  destruct (Z.eqb_spec (ktoken s1) tCOMMA) as [K|K].
  - assert (M2 := moves_nk _ _ (subsets_moves n lo (knext s1) s' E)). rewrite nk_next in M2.
    destruct (subset_accepted lo s s1 E1 ltac:(lia) W) as (ts & x & A & G). assert (W1 := ate_wf _ _ _ A W).
    destruct (ate_next s1 W1) as (d & B & Td & _ & _); [rewrite K; discriminate|]. assert (W2 := ate_wf _ _ _ B W1).
    destruct (IH (knext s1) s' E) as (us & l & C & Gs); [rewrite nk_next; lia|exact W2|].
    exists (ts ++ d :: us), (x :: l). split; [|apply g_more; [exact G|congruence|exact Gs]].
    eapply ate_trans; [exact A|]. eapply (ate_trans _ _ _ [d] us); eassumption.
  - apply kdone_inv in E. subst s1. destruct (subset_accepted lo s s' E1 N W) as (ts & x & A & G). exists ts, [x]. split; [exact A|apply g_last, G].
Qed.

(** ** Expressions *)

Definition Ac {A} (run : cst -> kres) (g : list tok -> A -> Prop) (ty : A -> option Z) : Prop :=
  forall s s', run s = KDone s' -> nk s' = nk s -> wfk s -> exists ts a, ate s s' ts /\ g ts a /\ ty a = Some (ktok s').

Lemma constructor_accepted n lo s s' : set_constructor n lo s = KDone s' -> nk s' = nk s -> wfk s -> ktoken s = tLBRACKET ->
  exists ts l, ate s s' ts /\ gcfactor ts (KSet l) /\ ktok s' = tSET_CONST.
Proof.
  intros E N W K. unfold set_constructor in E. cbv zeta in E. apply bindk_inv in E. destruct E as (s1 & E & E2). apply kdone_inv in E2. subst s'.
  rewrite nk_constant in N. set (s0 := with_set [0; 0; 0; 0] s) in *. assert (W0 : wfk s0) by exact W.
  destruct (ate_next s0 W0) as (x & A & T & _ & _); [change (ktoken s0) with (ktoken s); rewrite K; discriminate|].
  change (ktoken s0) with (ktoken s) in T. rewrite K in T. symmetry in T. assert (W1 := ate_wf _ _ _ A W0).
  assert (Q : forall s ts, ate s0 s ts -> ate (with_set (kset s) s0) s ts) by (intros ? ? H; exact H).
  destruct (Z.eqb_spec (ktoken (knext s0)) tRBRACKET) as [R|R].
  - apply kdone_inv in E. subst s1. destruct (ate_next (knext s0) W1) as (y & B & Ty & _ & _); [rewrite R; discriminate|].
    exists [x; y], []. split; [|split; [apply g_empty; congruence|reflexivity]].
    eapply ate_same; [exact (ate_trans s0 _ _ [x] [y] A B)|reflexivity].
  - apply bindk_inv in E. destruct E as (s2 & E & E2). apply kdone_inv in E2.
    assert (M := moves_nk _ _ (subsets_moves n lo _ _ E)). rewrite nk_next in M. change (nk s0) with (nk s) in M.
    destruct (Z.eqb_spec (ktoken s2) tRBRACKET) as [R2|R2]; subst s1; [rewrite nk_next in N|rewrite nk_error in N; lia].
    destruct (subsets_accepted n lo _ _ E) as (ts & l & C & G); [rewrite nk_next; exact N|exact W1|].
    assert (W2 := ate_wf _ _ _ C W1). destruct (ate_next s2 W2) as (y & B & Ty & _ & _); [rewrite R2; discriminate|].
    exists (x :: ts ++ [y]), l. split; [|split; [apply g_set; [exact T|exact G|congruence]|reflexivity]].
    eapply ate_same; [exact (ate_trans s0 _ _ [x] _ A (ate_trans _ _ _ _ _ C B))|reflexivity].
Qed.

Lemma lparen_accepted s : nk (check_lparen s) = nk s -> wfk s -> ktoken s <> 0 ->
  exists x y, ate s (check_lparen s) [x; y] /\ kcur s = x /\ tk x = ktoken s /\ tk y = tLPAREN /\ wf_const x.
Proof.
  intros N W K. destruct (ate_next s W K) as (x & A & T & C & Wx). assert (W1 := ate_wf _ _ _ A W). revert N. unfold check_lparen. cbv zeta.
  destruct (Z.eqb_spec (ktoken (knext s)) tLPAREN) as [R|R]; [intros _|rewrite nk_error, nk_next; lia].
  destruct (ate_next (knext s) W1) as (y & B & Ty & _ & _); [rewrite R; discriminate|]. exists x, y.
  split; [exact (ate_trans _ _ _ [x] [y] A B)|]. split; [exact C|]. split; [congruence|]. split; [congruence|exact Wx].
Qed.
Lemma nk_lparen s : (nk s <= nk (check_lparen s))%nat.
Proof. apply moves_nk, moves_lparen. Qed.
Lemma nk_rparen s : (nk s <= nk (check_rparen s))%nat.
Proof. apply moves_nk, moves_rparen. Qed.
Lemma rparen_accepted s : nk (check_rparen s) = nk s -> wfk s -> exists y, ate s (check_rparen s) [y] /\ tk y = tRPAREN.
Proof.
  unfold check_rparen. destruct (Z.eqb_spec (ktoken s) tRPAREN) as [R|R]; [intros _ W|rewrite nk_error; lia].
  destruct (ate_next s W) as (y & B & Ty & _ & _); [rewrite R; discriminate|]. exists y. split; [exact B|congruence].
Qed.

(** The frame of a function call *)
Lemma call_accepted arg s s1 s2 f u : Ac arg gcexpr clax -> (forall s, Moves s (arg s)) -> wfk s -> ktoken s = tSTDFUNC ->
  (tsub (kcur s) <> txODD -> spells_fun (kcur s) f) ->
  arg (check_lparen s) = KDone s1 -> kc s2 = kc s1 -> nk (check_rparen s2) = nk s -> lax_fun f (ktok s1) = Some u ->
  exists ts e, ate s (check_rparen s2) ts /\ gcfactor ts (KFun f e) /\ fclax (KFun f e) = Some u.
Proof.
  intros IE M W K Sp E Q N U. apply M in E as M1. apply moves_nk in M1. assert (N2 : nk s2 = nk s1) by (unfold nk; rewrite Q; reflexivity).
  assert (L := nk_lparen s). assert (R := nk_rparen s2).
  destruct (lparen_accepted s) as (x & y & A & Cx & Tx & Ty & Wx); [lia|exact W|rewrite K; discriminate|]. assert (W1 := ate_wf _ _ _ A W).
  destruct (IE _ _ E) as (ts & e & B & G & T); [lia|exact W1|]. assert (W2 := ate_wf _ _ _ B W1).
  destruct (rparen_accepted s2) as (z & C & Tz); [lia|unfold wfk; rewrite Q; exact W2|].
  exists (x :: y :: ts ++ [z]), e. split; [|split].
  - apply (ate_trans _ _ _ [x; y] _ A). eapply ate_trans; [eapply ate_same; [exact B|exact Q]|exact C].
  - apply g_fun; [|exact Ty|exact G|exact Tz]. rewrite <- Cx. apply Sp. rewrite Cx. apply Wx. congruence.
  - change (bind (clax e) (lax_fun f) = Some u). rewrite T. exact U.
Qed.
Lemma one_in l t : In t l -> one_of l t = Some t.
Proof. intros H. unfold one_of. replace (existsb (Z.eqb t) l) with true; [reflexivity|]. symmetry. apply existsb_exists. exists t. split; [exact H|apply Z.eqb_refl]. Qed.
Lemma ktok_rparen s : ktok (check_rparen s) = ktok s.
Proof. unfold check_rparen. destruct (_ =? _); reflexivity. Qed.

Lemma function_accepted n arg s s' : Ac arg gcexpr clax -> (forall s, Moves s (arg s)) -> wfk s -> ktoken s = tSTDFUNC ->
  constant_function n arg s = KDone s' -> nk s' = nk s -> exists ts a, ate s s' ts /\ gcfactor ts a /\ fclax a = Some (ktok s').
Proof.
  intros IE M W K E N. unfold constant_function in E. cbv zeta in E. set (f := tsub (kcur s)) in *.
  assert (Kc : tk (kcur s) = tSTDFUNC) by exact K.
  assert (L := nk_lparen s).
  assert (Fr : forall g s1 s2 u, (tsub (kcur s) <> txODD -> spells_fun (kcur s) g) -> arg (check_lparen s) = KDone s1 -> kc s2 = kc s1 ->
            nk (check_rparen s2) = nk s -> lax_fun g (ktok s1) = Some u -> ktok s2 = u -> s' = check_rparen s2 ->
            exists ts a, ate s s' ts /\ gcfactor ts a /\ fclax a = Some (ktok s')).
  { intros g s1 s2 u Sp E1 Q N2 U T ->. destruct (call_accepted arg s s1 s2 g u IE M W K Sp E1 Q N2 U) as (ts & e & A & G & Y).
    exists ts, (KFun g e). split; [exact A|]. split; [exact G|]. rewrite ktok_rparen, T. exact Y. }
  assert (Er : forall s1 b e s2, arg (check_lparen s) = KDone s1 -> s' = check_rparen s2 -> (nk s2 = nk (kerror_if b e s1)) -> b = false).
  { intros s1 b e s2 E1 -> Q. apply M, moves_nk in E1. assert (R := nk_rparen s2). rewrite nk_error_if in Q. destruct b; [lia|reflexivity]. }
  destruct (Z.eqb_spec f txABS) as [F|_]; [|destruct (Z.eqb_spec f txSQR) as [F|_]].
  1, 2: apply bindk_inv in E; destruct E as (s1 & E1 & E); destruct (Z.eqb_spec (ktok s1) tINT_CONST) as [T|T];
    [apply bindi_inv in E; destruct E as (v & E)|]; apply kdone_inv in E;
    [|exfalso; assert (X := Er s1 true eINVARG _ E1 E eq_refl); discriminate X].
  1: eapply (Fr Abs); [intros _; split; [exact Kc|]|exact E1| | | |reflexivity|exact E]; [exact F|reflexivity|rewrite <- E; exact N|rewrite T; reflexivity].
  1: eapply (Fr Sqr); [intros _; split; [exact Kc|]|exact E1| | | |reflexivity|exact E]; [exact F|reflexivity|rewrite <- E; exact N|rewrite T; reflexivity].
  destruct ((f =? txPRED) || (f =? txSUCC)) eqn:F.
  { apply bindk_inv in E. destruct E as (s1 & E1 & E). apply bindi_inv in E. destruct E as (v & E). apply kdone_inv in E.
    assert (X := Er s1 _ eINVARG _ E1 E eq_refl). apply negb_false_iff in X. rewrite X in E. cbn [negb kerror_if] in E. apply in_eqb in X.
    apply orb_true_iff in F. destruct F as [F|F]; apply Z.eqb_eq in F;
      [(eapply (Fr Pred); [intros _; split; [exact Kc|]|exact E1| | | |reflexivity|exact E]; [exact F|reflexivity|rewrite <- E; exact N|apply one_in, X])|(eapply (Fr Succ); [intros _; split; [exact Kc|]|exact E1| | | |reflexivity|exact E]; [exact F|reflexivity|rewrite <- E; exact N|apply one_in, X])]. }
  clear F. destruct (f =? txSIZEOF); [discriminate E|]. destruct (_ || _); [apply kdone_inv in E; subst s'; rewrite nk_error in N; lia|].
  destruct (Z.eqb_spec f txCHR) as [F|_].
  { apply bindk_inv in E. destruct E as (s1 & E1 & E). apply kdone_inv in E. destruct (Z.eqb_spec (ktok s1) tINT_CONST) as [T|T].
    - eapply (Fr Chr); [intros _; split; [exact Kc|]|exact E1| | | |reflexivity|exact E]; [exact F|reflexivity|rewrite <- E; exact N|rewrite T; reflexivity].
    - exfalso. assert (X := Er s1 true eINVARG _ E1 E eq_refl). discriminate X. }
  destruct (Z.eqb_spec f txORD) as [F|_].
  { apply bindk_inv in E. destruct E as (s1 & E1 & E). apply kdone_inv in E.
    assert (X := Er s1 _ eINVARG _ E1 E eq_refl). apply negb_false_iff in X. rewrite X in E. cbn [negb kerror_if] in E. apply in_eqb in X.
    eapply (Fr Ord); [intros _; split; [exact Kc|]|exact E1| | | |reflexivity|exact E]; [exact F|reflexivity|rewrite <- E; exact N|].
    unfold lax_fun. rewrite (one_in _ _ X). reflexivity. }
  destruct (Z.eqb_spec f txODD) as [F|_].
  { exfalso. unfold wfk in W. destruct (toks (kc s)) as [|x l] eqn:X; [unfold kcur, cur in Kc; rewrite X in Kc; discriminate Kc|].
    assert (Y : kcur s = x) by (unfold kcur, cur; rewrite X; reflexivity). inversion W as [|? ? (_ & O) _]. apply O; [congruence|]. unfold f in F. congruence. }
  destruct (existsb (Z.eqb f) real_functions) eqn:F; [|apply kdone_inv in E; subst s'; rewrite nk_error in N; lia].
  apply bindk_inv in E. destruct E as (s1 & E1 & E). apply kdone_inv in E.
  assert (X := Er s1 _ eINVARG _ E1 E eq_refl). rewrite X in E. cbn [kerror_if] in E. apply negb_false_iff, Z.eqb_eq in X. apply in_eqb in F.
  eapply (Fr RealFun); [intros _; split; [exact Kc|]|exact E1| | | |reflexivity|exact E]; [exact F|reflexivity|rewrite <- E; exact N|]. rewrite X. reflexivity.
Qed.

Lemma is_mul_spec o t : is_mul_constant o t = true -> t <> tSET_CONST -> exists p, (forall x, tk x = o -> spells_cmul x p) /\ lax_cmul p t t = Some t.
Proof.
  unfold is_mul_constant. intros H N. apply orb_true_iff in H. destruct H as [H|H]; [apply orb_true_iff in H; destruct H as [H|H]|]; apply andb_true_iff in H; destruct H as (A & B).
  - apply Z.eqb_eq in B. subst t. apply in_eqb in A.
    destruct A as [A|[A|[A|[A|[A|[]]]]]]; subst o; [exists Times|exists Mod|exists Div|exists Shl|exists Shr]; (split; [intros x H; exact H|reflexivity]).
  - apply Z.eqb_eq in B. destruct (N B).
  - apply Z.eqb_eq in A. subst o. exists And. split; [intros x H; exact H|]. unfold lax_cmul. rewrite Z.eqb_refl. apply one_in, in_eqb, B.
Qed.
Lemma is_add_spec o t : is_add_constant o t = true -> exists p, (forall x, tk x = o -> spells_cadd x p) /\ lax_cadd p t t = Some t.
Proof.
  unfold is_add_constant. intros H. apply orb_true_iff in H. destruct H as [H|H]; [apply orb_true_iff in H; destruct H as [H|H]|]; apply andb_true_iff in H; destruct H as (A & B).
  - apply Z.eqb_eq in B. subst t. apply in_eqb in A.
    destruct A as [A|[A|[]]]; subst o; [exists CPlus|exists CMinus]; (split; [intros x H; exact H|reflexivity]).
  - apply Z.eqb_eq in A. subst o. exists COr. split; [intros x H; exact H|]. unfold lax_cadd. rewrite Z.eqb_refl. apply one_in, in_eqb, B.
  - apply Z.eqb_eq in B. subst t. apply in_eqb in A.
    destruct A as [A|[A|[A|[]]]]; subst o; [exists CPlus|exists CMinus|exists CSymmetric]; (split; [intros x H; exact H|reflexivity]).
Qed.

(** A loop that goes on from [a0], read from the tokens [ts0] *)
Definition Loop {A} (run : Z -> cst -> kres) (g : list tok -> A -> Prop) (ty : A -> option Z) : Prop :=
  forall t s s' ts0 a0, run t s = KDone s' -> nk s' = nk s -> wfk s -> g ts0 a0 -> ty a0 = Some t ->
  exists us a, ate s s' us /\ g (ts0 ++ us) a /\ ty a = Some (ktok s').

Lemma no_relation n lo s s' : const_simple n lo s = KDone s' -> rel_op (ktoken s) = true \/ rel_set_op (ktoken s) = true -> (nk s < nk s')%nat.
Proof.
  intros E R.
  assert (P : (ktoken s =? tPLUS) = false /\ (ktoken s =? tMINUS) = false) by
    (destruct R as [R|R]; apply in_eqb in R; repeat destruct R as [<-|R]; try contradiction; split; reflexivity).
  destruct P as (P1 & P2). destruct n as [|n]; [discriminate E|]. rewrite const_simple_S in E. cbv zeta in E. rewrite P1, P2 in E. cbn [orb andb bindi] in E.
  apply bindk_inv in E. destruct E as (s1 & E1 & E). apply (const_moves n) in E. apply moves_nk in E.
  destruct n as [|n]; [discriminate E1|]. rewrite const_term_S in E1. apply bindk_inv in E1. destruct E1 as (s2 & E2 & E1).
  apply (const_moves n) in E1. apply moves_nk in E1.
  assert (X : s2 = kerror eINVFACTOR s).
  { destruct n as [|n]; [discriminate E2|]. rewrite const_factor_S in E2. cbv zeta in E2.
    destruct R as [R|R]; apply in_eqb in R; repeat destruct R as [R|R]; try contradiction; rewrite <- R in E2; apply kdone_inv in E2; exact E2. }
  rewrite X, nk_error in E1. lia.
Qed.

Lemma const_accept n :
  (forall lo, Ac (const_expression n lo) gcexpr clax) /\ (forall lo, Ac (const_simple n lo) gcsimple sclax) /\
  (forall lo v l, Loop (fun t => const_terms n lo t v l) gcsimple sclax) /\ (forall lo, Ac (const_term n lo) gcterm tclax) /\
  (forall lo v, Loop (fun t => const_factors n lo t v) gcterm tclax) /\ (forall lo, Ac (const_factor n lo) gcfactor fclax).
Proof.
  induction n as [|n (IE & IS & ITs & IT & IFs & IF)].
  { repeat match goal with |- _ /\ _ => split end; repeat intro; discriminate. }
  destruct (const_moves n) as (ME & MS & MTs & MT & MFs & MF).
  repeat match goal with |- _ /\ _ => split end.
  - intros lo s s' E N W. rewrite const_expression_S in E. cbv zeta in E. apply bindk_inv in E. destruct E as (s1 & E1 & E).
    assert (M1 := moves_nk _ _ (MS _ _ _ E1)). destruct (_ || _) eqn:R.
    + exfalso. apply bindk_inv in E. destruct E as (s2 & E2 & E). apply no_relation in E2.
      * apply kdone_inv in E. subst s'. rewrite nk_constant in N. match type of N with nk (compare_constants ?o ?t ?a ?l ?s) = _ => pose proof (moves_nk _ _ (moves_compare o t a l s)) as Q end.
        rewrite nk_error_if in Q. lia.
      * apply orb_true_iff in R. destruct R as [R|R]; apply andb_true_iff in R; destruct R; auto.
    + apply kdone_inv in E. subst s1. destruct (IS lo s s' E1 N W) as (ts & a & A & G & T). exists ts, (KSimple a). split; [exact A|]. split; [apply g_csimple, G|exact T].
  - intros lo s s' E N W. rewrite const_simple_S in E. cbv zeta in E.
    assert (P : exists s0 ts0 sg, (if (ktoken s =? tPLUS) || (ktoken s =? tMINUS) then knext s else s) = s0 /\ ate s s0 ts0 /\
              (forall ts t, gcterm ts t -> gcsimple (ts0 ++ ts) (KTerm sg t)) /\ (sg = Unsigned \/ (ktoken s =? tPLUS) || (ktoken s =? tMINUS) = true)).
    { destruct (Z.eqb_spec (ktoken s) tPLUS) as [K|K]; [|destruct (Z.eqb_spec (ktoken s) tMINUS) as [K2|K2]]; cbn [orb].
      - destruct (ate_next s W) as (x & A & T & _ & _); [rewrite K; discriminate|]. exists (knext s), [x], Positive.
        split; [reflexivity|]. split; [exact A|]. split; [intros ts t G; apply g_cplus; [congruence|exact G]|right; reflexivity].
      - destruct (ate_next s W) as (x & A & T & _ & _); [rewrite K2; discriminate|]. exists (knext s), [x], Negative.
        split; [reflexivity|]. split; [exact A|]. split; [intros ts t G; apply g_cminus; [congruence|exact G]|right; reflexivity].
      - exists s, [], Unsigned. split; [reflexivity|]. split; [apply ate_refl; reflexivity|]. split; [intros ts t G; apply g_cterm, G|left; reflexivity]. }
    destruct P as (s0 & ts0 & sg & Q & A & G0 & Sg). rewrite Q in E. apply bindk_inv in E. destruct E as (s1 & E1 & E).
    destruct (_ && _) eqn:B; [discriminate E|]. apply bindi_inv in E. destruct E as (v & E).
    assert (M1 := moves_nk _ _ (MT _ _ _ E1)). assert (M2 := moves_nk _ _ (MTs _ _ _ _ _ _ E)). assert (N0 := ate_nk _ _ _ A).
    assert (W0 := ate_wf _ _ _ A W). destruct (IT lo s0 s1 E1 ltac:(lia) W0) as (ts & t & At & Gt & Tt). assert (W1 := ate_wf _ _ _ At W0).
    destruct (ITs lo v (kset s1) (ktok s1) s1 s' (ts0 ++ ts) (KTerm sg t) E ltac:(lia) W1 (G0 _ _ Gt)) as (us & a & Ae & Ge & Te).
    + destruct Sg as [->|Sg]; [exact Tt|]. rewrite Sg in B. cbn in B. apply negb_false_iff, Z.eqb_eq in B.
      destruct sg; [exact Tt| |]; change (bind (tclax t) (one_of [tINT_CONST]) = Some (ktok s1)); rewrite Tt, B; reflexivity.
    + exists ((ts0 ++ ts) ++ us), a. split; [|split; [exact Ge|exact Te]]. eapply ate_trans; [|exact Ae]. eapply ate_trans; eassumption.
  - intros lo v l t s s' ts0 a0 E N W G0 T0. cbv beta in E. rewrite const_terms_S in E. cbv zeta in E. destruct (is_add_constant _ _) eqn:O.
    + destruct (ate_next s W) as (x & A & Tx & _ & _); [eapply op_not_eof; right; exact O|].
      destruct (is_add_spec _ _ O) as (p & Sp & Lp). apply bindk_inv in E. destruct E as (s1 & E1 & E).
      assert (M1 := moves_nk _ _ (MT _ _ _ E1)). rewrite nk_next in M1.
      set (s2 := kerror_if (negb (t =? ktok s1)) eTERMTYPE s1) in *.
      assert (X : exists v' s3, kc s3 = kc s2 /\ const_terms n lo t v' l s3 = KDone s').
      { destruct (t =? tINT_CONST); [apply bindi_inv in E; destruct E as (v' & E); exists v', s2; split; [reflexivity|exact E]|].
        destruct (t =? tBOOLEAN_CONST); [eexists; exists s2; split; [reflexivity|exact E]|]. eexists. eexists. split; [|exact E]. reflexivity. }
      destruct X as (v' & s3 & Q & E3). assert (M2 := moves_nk _ _ (MTs _ _ _ _ _ _ E3)). assert (N3 : nk s3 = nk s2) by (unfold nk; rewrite Q; reflexivity).
      unfold s2 in N3. rewrite nk_error_if in N3. destruct (Z.eqb_spec t (ktok s1)) as [Y|Y]; cbn [negb] in N3; [|lia].
      assert (W1 := ate_wf _ _ _ A W). destruct (IT lo _ _ E1) as (us & b & Ab & Gb & Tb); [rewrite nk_next; lia|exact W1|]. assert (W2 := ate_wf _ _ _ Ab W1).
      assert (Qs : kc s3 = kc s1) by (rewrite Q; unfold s2; replace (t =? ktok s1) with true by (symmetry; apply Z.eqb_eq, Y); reflexivity).
      destruct (ITs lo v' l t s3 s' (ts0 ++ x :: us) (KAdd a0 p b) E3) as (vs & a & Ae & Ge & Te);
        [lia|unfold wfk; rewrite Qs; exact W2|apply g_cadd; [exact G0|apply Sp; congruence|exact Gb]| |].
      * change (bind (sclax a0) (fun a => bind (tclax b) (lax_cadd p a)) = Some t). rewrite T0, Tb, <- Y. exact Lp.
      * exists ((x :: us) ++ vs), a. rewrite app_assoc. split; [|split; [exact Ge|exact Te]].
        eapply ate_trans; [|exact Ae]. eapply (ate_trans _ _ _ [x] us); [exact A|]. eapply ate_same; [exact Ab|exact Qs].
    + apply kdone_inv in E. subst s'. exists [], a0. rewrite app_nil_r. split; [apply ate_refl; reflexivity|]. split; [exact G0|exact T0].
  - intros lo s s' E N W. rewrite const_term_S in E. apply bindk_inv in E. destruct E as (s1 & E1 & E).
    assert (M1 := moves_nk _ _ (MF _ _ _ E1)). assert (M2 := moves_nk _ _ (MFs _ _ _ _ _ E)).
    destruct (IF lo s s1 E1 ltac:(lia) W) as (ts & f & A & G & T). assert (W1 := ate_wf _ _ _ A W).
    destruct (IFs lo (kint s1) (ktok s1) s1 s' ts (KFactor f) E ltac:(lia) W1 (g_cfactor _ _ G) T) as (us & a & Ae & Ge & Te).
    exists (ts ++ us), a. split; [eapply ate_trans; eassumption|]. split; [exact Ge|exact Te].
  - intros lo v t s s' ts0 a0 E N W G0 T0. cbv beta in E. rewrite const_factors_S in E. cbv zeta in E. destruct (is_mul_constant _ _) eqn:O.
    + destruct (ate_next s W) as (x & A & Tx & _ & _); [eapply op_not_eof; left; exact O|].
      apply bindk_inv in E. destruct E as (s1 & E1 & E). assert (M1 := moves_nk _ _ (MF _ _ _ E1)). rewrite nk_next in M1.
      set (s2 := kerror_if (negb (t =? ktok s1)) eFACTORTYPE s1) in *.
      assert (N2 : nk s2 = Nat.add (if negb (t =? ktok s1) then 1 else 0) (nk s1)) by apply nk_error_if.
      destruct (Z.eqb_spec t tSET_CONST) as [Z|Z].
      { exfalso. assert (M2 := moves_nk _ _ (MFs _ _ _ _ _ E)). rewrite nk_error in M2. destruct (negb _) in N2; lia. }
      destruct (is_mul_spec _ _ O Z) as (p & Sp & Lp). apply bindi_inv in E. destruct E as (v' & E).
      assert (M2 := moves_nk _ _ (MFs _ _ _ _ _ E)). destruct (Z.eqb_spec t (ktok s1)) as [Y|Y]; cbn [negb] in N2; [|lia].
      assert (Q : s2 = s1) by (unfold s2; replace (t =? ktok s1) with true by (symmetry; apply Z.eqb_eq, Y); reflexivity). rewrite Q in *.
      assert (W1 := ate_wf _ _ _ A W). destruct (IF lo _ _ E1) as (us & b & Ab & Gb & Tb); [rewrite nk_next; lia|exact W1|]. assert (W2 := ate_wf _ _ _ Ab W1).
      destruct (IFs lo v' t s1 s' (ts0 ++ x :: us) (KMul a0 p b) E) as (vs & a & Ae & Ge & Te);
        [lia|exact W2|apply g_cmul; [exact G0|apply Sp; congruence|exact Gb]| |].
      * change (bind (tclax a0) (fun a => bind (fclax b) (lax_cmul p a)) = Some t). rewrite T0, Tb, <- Y. exact Lp.
      * exists ((x :: us) ++ vs), a. rewrite app_assoc. split; [|split; [exact Ge|exact Te]].
        eapply ate_trans; [|exact Ae]. eapply (ate_trans _ _ _ [x] us); [exact A|exact Ab].
    + apply kdone_inv in E. subst s'. exists [], a0. rewrite app_nil_r. split; [apply ate_refl; reflexivity|]. split; [exact G0|exact T0].
  - intros lo s s' E N W. rewrite const_factor_S in E. cbv zeta in E. destruct (existsb _ _) eqn:L.
    { apply in_eqb in L. apply kdone_inv in E. subst s'. destruct (ate_next s W) as (x & A & T & _ & Wx).
      { repeat destruct L as [<-|L]; try contradiction; discriminate. }
      destruct (lit_of x Wx) as (a & Sa). { rewrite <- T. repeat destruct L as [<-|L]; try contradiction; reflexivity. }
      assert (Fa : a <> LScalar /\ fclax (KLit a) = Some (ktoken s)).
      { rewrite T in L |- *. destruct a; cbn in Sa; [destruct Sa as (-> & _)|destruct Sa as (-> & _)|destruct Sa as (-> & _)|rewrite Sa in L; repeat destruct L as [L|L]; try contradiction; discriminate L];
          (split; [discriminate|reflexivity]). }
      exists [x], (KLit a). split; [eapply ate_same; [exact A|reflexivity]|]. split; [apply g_lit; [exact Sa|apply Fa]|apply Fa]. }
    clear L. destruct (existsb _ _); [discriminate E|]. destruct (Z.eqb_spec (ktoken s) tLBRACKET) as [K|_].
    { destruct (constructor_accepted n lo s s' E N W K) as (ts & l & A & G & T). exists ts, (KSet l). split; [exact A|]. split; [exact G|rewrite T; reflexivity]. }
    destruct (Z.eqb_spec (ktoken s) tNOT) as [K|_].
    { destruct (ate_next s W) as (x & A & T & _ & _); [rewrite K; discriminate|]. apply bindk_inv in E. destruct E as (s1 & E1 & E). apply kdone_inv in E. subst s'.
      assert (M1 := moves_nk _ _ (MF _ _ _ E1)). rewrite nk_next in M1. rewrite nk_constant, nk_error_if in N.
      destruct (logical_type (ktok s1)) eqn:Y; cbn [negb kerror_if] in *; [|lia].
      assert (W1 := ate_wf _ _ _ A W). destruct (IF lo _ _ E1) as (us & b & Ab & Gb & Tb); [rewrite nk_next; lia|exact W1|].
      exists (x :: us), (KNot b). split; [eapply ate_same; [exact (ate_trans _ _ _ [x] us A Ab)|reflexivity]|]. split; [apply g_cnot; [congruence|exact Gb]|].
      change (bind (fclax b) (one_of [tINT_CONST; tBOOLEAN_CONST]) = Some (ktok s1)). rewrite Tb. apply one_in, in_eqb, Y. }
    destruct (Z.eqb_spec (ktoken s) tSTDFUNC) as [K|_]; [|apply kdone_inv in E; subst s'; rewrite nk_error in N; lia].
    eapply function_accepted; [apply IE|intros; apply ME|exact W|exact K|exact E|exact N].
Qed.

Theorem const_accepted n lo s s' : const_expression n lo s = KDone s' -> errs (kc s') = errs (kc s) -> Forall wf_const (toks (kc s)) ->
  exists ts e rest, toks (kc s) = ts ++ rest /\ only_tokens (kc s) (kc s') rest /\ gcexpr ts e /\ clax e = Some (ktok s').
Proof.
  intros E N W. destruct (const_accept n) as (H & _). destruct (H lo s s' E) as (ts & e & (A & A') & G & T); [unfold nk, ne; rewrite N; reflexivity|exact W|].
  exists ts, e, (toks (kc s')). auto.
Qed.
