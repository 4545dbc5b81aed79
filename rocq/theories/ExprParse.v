(** What the expression compiler accepts. *)

From Coq Require Import ZArith Bool List Lia ZifyBool.
From Verif Require Import Words State Opcodes EncodeModel Machine ExprModel ExprSpec ExprLoad ExprProofs.
Import ListNotations.
Open Scope Z_scope.

(** ** Errors accumulate *)

Definition grows (c c' : comp) : Prop := exists es, errs c' = errs c ++ es.
Lemma grows_refl c : grows c c.
Proof. exists []. rewrite app_nil_r. reflexivity. Qed.
Lemma grows_trans a b c : grows a b -> grows b c -> grows a c.
Proof. intros (x & X) (y & Y). exists (x ++ y). rewrite Y, X, app_assoc. reflexivity. Qed.
Lemma grows_clean a b c : grows a b -> grows b c -> errs c = errs a -> errs b = errs a /\ errs c = errs b.
Proof.
  intros (x & X) (y & Y) E. rewrite Y, X, <- app_assoc in E.
  assert (x ++ y = []) by (apply (app_inv_head (errs a)); rewrite app_nil_r; exact E).
  apply app_eq_nil in H. destruct H as (-> & ->). rewrite app_nil_r in *. split; congruence.
Qed.

(** A step that neither reads tokens nor changes the level *)
Definition local (c c' : comp) : Prop := grows c c' /\ toks c' = toks c.
Lemma local_refl c : local c c.
Proof. split; [apply grows_refl|reflexivity]. Qed.
Lemma local_trans a b c : local a b -> local b c -> local a c.
Proof. intros (A & A') (B & B'). split; [eapply grows_trans; eauto|congruence]. Qed.
Lemma local_error e c : local c (error e c).
Proof. split; [exists [e]; reflexivity|reflexivity]. Qed.
Lemma local_error_if b e c : local c (error_if b e c).
Proof. destruct b; [apply local_error|apply local_refl]. Qed.
Lemma local_append p c : local c (append p c).
Proof. split; [exists []; cbn; rewrite app_nil_r; reflexivity|reflexivity]. Qed.
Lemma local_emit a b d c : local c (emit a b d c).
Proof.
  unfold emit. eapply local_trans; [|apply local_append]. eapply local_trans; [apply local_error_if|apply local_error_if].
Qed.
Lemma local_ref o v c : local c (stack_ref o v c).
Proof. unfold stack_ref. destruct (_ && _); [destruct (vOffset v <? 0)|]; auto using local_error, local_emit. Qed.
Global Hint Resolve local_refl local_error local_error_if local_append local_emit local_ref : local.

Ltac ifs := repeat match goal with |- context [if ?b then _ else _] => destruct b end.
Lemma local_negate t c : local c (negate t c).
Proof. unfold negate, simple_op, long_op. ifs; auto with local. Qed.
Lemma local_add o t c : local c (add_op o t c).
Proof. unfold add_op, simple_op, long_op. ifs; auto with local. Qed.
Lemma local_mul o t c : local c (mul_op o t c).
Proof. unfold mul_op, simple_op, long_op. ifs; auto with local. Qed.
Lemma local_convert n o c : local c (convert n o c).
Proof. unfold convert, long_op. ifs; auto with local. Qed.
Lemma local_check f t c : local c (check_type f t c).
Proof. unfold check_type. auto with local. Qed.
Lemma local_const f v c : local c (snd (int_const f v c)).
Proof. unfold int_const, data_op. ifs; cbn [snd]; eauto using local_trans with local. Qed.
Lemma local_compare r a b c : local c (snd (compare r a b c)).
Proof.
  unfold compare, simple_op, long_op. destruct (_ && _ && _); cbn [snd]; auto with local.
  destruct (teq a b); [|destruct (teq a xInteger && _); [|destruct (among a _ && _)]]; ifs; cbn [snd];
    auto with local; (eapply local_trans; [apply local_error|]); auto with local.
Qed.
Global Hint Resolve local_negate local_add local_mul local_convert local_check local_const local_compare : local.

Lemma grows_get c : grows c (getToken c).
Proof. exists []. cbn. rewrite app_nil_r. reflexivity. Qed.
Lemma local_grows a b : local a b -> grows a b.
Proof. intros (H & _). exact H. Qed.

Lemma bindr_done r k t c : bindr r k = Done t c -> exists t1 c1, r = Done t1 c1 /\ k t1 c1 = Done t c.
Proof. destruct r; cbn; try discriminate. eauto. Qed.

Lemma done_inv t c t' c' : Done t c = Done t' c' -> t' = t /\ c' = c.
Proof. intros H. split; congruence. Qed.

Definition Grow (f : comp -> res) : Prop := forall c t c', f c = Done t c' -> grows c c'.

Ltac inv_done H := apply bindr_done in H; let t := fresh "t" in let c := fresh "c" in let E := fresh "E" in destruct H as (t & c & E & H).

Lemma local_std f t c : local c (std_code f t c).
Proof.
  unfold std_code, simple_op, data_op.
  repeat match goal with |- local _ (if ?b then _ else _) => destruct b end; try apply local_error; try apply local_emit; try apply local_refl.
  all: eapply local_trans; [|apply local_emit]; try apply local_emit. eapply local_trans; apply local_emit.
Qed.

Lemma factor_fixed n find c t c' : factor (S n) find c = Done t c' ->
  token c <> tLPAREN -> token c <> tNOT -> token c <> tTILDE -> token c <> sTYPE -> token c <> tSTDFUNC -> exists d, local c d /\ (c' = d \/ c' = getToken d).
Proof.
  intros H N1 N2 N3 N4 N5. cbn [factor] in H.
  destruct (token c =? tIDENT); [injection H as <- <-; eauto with local|].
  destruct (token c =? tINT_CONST).
  { destruct (int_const find (tval (cur c)) c) as [ty d] eqn:E. injection H as <- <-.
    exists d. split; [|auto]. replace d with (snd (int_const find (tval (cur c)) c)) by (rewrite E; reflexivity). apply local_const. }
  destruct (token c =? tBOOLEAN_CONST); [injection H as <- <-; eexists; split; [|right; reflexivity]; apply local_emit|].
  destruct (token c =? tCHAR_CONST); [injection H as <- <-; eexists; split; [|right; reflexivity]; apply local_emit|].
  destruct (token c =? sINT); [injection H as <- <-; eexists; split; [|right; reflexivity]; apply local_ref|].
  destruct (token c =? sWORD); [injection H as <- <-; eexists; split; [|right; reflexivity]; apply local_ref|].
  destruct (token c =? sBOOLEAN); [injection H as <- <-; eexists; split; [|right; reflexivity]; apply local_ref|].
  destruct (token c =? sSHORTINT); [injection H as <- <-; eexists; split; [|right; reflexivity]; apply local_ref|].
  destruct (token c =? sSHORTWORD); [injection H as <- <-; eexists; split; [|right; reflexivity]; apply local_ref|].
  destruct (token c =? sCHAR); [injection H as <- <-; eexists; split; [|right; reflexivity]; apply local_ref|].
  destruct (token c =? sLONGINT); [injection H as <- <-; eexists; split; [|right; reflexivity]; eapply local_trans; [apply local_emit|apply local_ref]|].
  destruct (token c =? sLONGWORD); [injection H as <- <-; eexists; split; [|right; reflexivity]; eapply local_trans; [apply local_emit|apply local_ref]|].
  replace (token c =? tLPAREN) with false in H by lia.
  replace ((token c =? tTILDE) || (token c =? tNOT)) with false in H by lia.
  replace (token c =? sTYPE) with false in H by lia.
  replace (token c =? tSTDFUNC) with false in H by lia.
  destruct (existsb _ _); [discriminate|]. injection H as <- <-. eauto with local.
Qed.

Lemma factor_cases c (P : Prop) :
  (token c = tLPAREN -> P) -> (token c = tNOT \/ token c = tTILDE -> P) -> (token c = sTYPE -> P) -> (token c = tSTDFUNC -> P) ->
  (token c <> tLPAREN -> token c <> tNOT -> token c <> tTILDE -> token c <> sTYPE -> token c <> tSTDFUNC -> P) -> P.
Proof.
  intros. destruct (Z.eq_dec (token c) tLPAREN); auto. destruct (Z.eq_dec (token c) tNOT); auto.
  destruct (Z.eq_dec (token c) tTILDE); auto. destruct (Z.eq_dec (token c) sTYPE); auto.
  destruct (Z.eq_dec (token c) tSTDFUNC); auto.
Qed.

Lemma all_grow n : (forall f, Grow (expression n f)) /\ (forall f, Grow (simple_expression n f)) /\
  (forall f t, Grow (terms n f t)) /\ (forall f, Grow (term n f)) /\ (forall f t, Grow (factors n f t)) /\
  (forall f, Grow (factor n f)).
Proof.
  induction n as [|n (IE & IS & ITs & IT & IFs & IF)]; [repeat split; intros; intros c t' c' H; discriminate H|].
  assert (Get : forall f, Grow f -> Grow (fun c => f (getToken c))).
  { intros f Hf c t c' H. eapply grows_trans; [apply grows_get|apply (Hf _ _ _ H)]. }
  repeat match goal with |- _ /\ _ => split end.
  - intros f c t c' H. rewrite expression_S in H. inv_done H. apply IS in E. eapply grows_trans; [exact E|].
    destruct (token c0 =? tIN); [discriminate|]. destruct (relation (token c0)) as [r|].
    + inv_done H. apply (Get _ (IS f)) in E0. eapply grows_trans; [exact E0|].
      destruct (compare r t0 t1 c1) as [t2 c2] eqn:K. injection H as <- <-.
      apply local_grows. eapply local_trans; [|apply local_check].
      replace c2 with (snd (compare r t0 t1 c1)) by (rewrite K; reflexivity). apply local_compare.
    + injection H as <- <-. apply local_grows, local_check.
  - intros f c t c' H. rewrite simple_S in H. cbv zeta in H. inv_done H. apply IT in E. apply ITs in H.
    eapply grows_trans; [|eapply grows_trans; [exact E|]].
    + destruct (_ || _); [apply grows_get|apply grows_refl].
    + eapply grows_trans; [|exact H]. destruct (token c =? tMINUS); [apply local_grows, local_negate|apply grows_refl].
  - intros f t1 c t c' H. rewrite terms_S in H. cbv zeta in H. destruct (is_addop (token c)).
    + destruct (_ && _); [discriminate|]. inv_done H. apply (Get _ (IT f)) in E. eapply grows_trans; [exact E|].
      apply ITs in H. eapply grows_trans; [|exact H]. apply local_grows. eapply local_trans; [apply local_error_if|apply local_add].
    + injection H as <- <-. apply grows_refl.
  - intros f c t c' H. rewrite term_S in H. inv_done H. apply IF in E. apply IFs in H. eapply grows_trans; eauto.
  - intros f t1 c t c' H. rewrite factors_S in H. cbv zeta in H. destruct (is_mulop (token c)); [|injection H as <- <-; apply grows_refl].
    destruct (is_shift (token c)); inv_done H; apply (Get _ (IF _)) in E; (eapply grows_trans; [exact E|]); apply IFs in H;
      (eapply grows_trans; [|exact H]); apply local_grows.
    + eapply local_trans; [|apply local_mul]. eapply local_trans; apply local_error_if.
    + apply local_mul.
  - intros f c t c' H. apply (factor_cases c).
    + intros K. rewrite factor_paren in H by exact K. inv_done H. apply (Get _ (IE _)) in E. eapply grows_trans; [exact E|].
      destruct (token c0 =? tRPAREN); injection H as <- <-; [apply grows_get|apply local_grows, local_error].
    + intros K. rewrite factor_not in H by exact K. inv_done H. apply (Get _ (IF _)) in E. eapply grows_trans; [exact E|].
      cbv zeta in H. apply done_inv in H. destruct H as (-> & ->). apply local_grows.
      eapply local_trans; [apply (local_error_if (negb (among t0 int16s || among t0 longs || teq t0 xBoolean)) eFACTORTYPE)|].
      unfold long_op, simple_op. destruct (among t0 longs); auto with local.
    + intros K. rewrite factor_cast in H by exact K. cbv zeta in H. destruct (negb _).
      * injection H as <- <-. eapply grows_trans; [apply grows_get|apply local_grows, local_error].
      * destruct (map_type _); [|discriminate]. inv_done H. apply (Get _ (IE _)) in E. eapply grows_trans; [apply grows_get|].
        eapply grows_trans; [exact E|]. set (d := if token c0 =? tRPAREN then _ else _) in H.
        assert (D : grows c0 d) by (unfold d; destruct (token c0 =? tRPAREN); [apply grows_get|apply local_grows, local_error]).
        destruct (teq t0 xUnknown); injection H as <- <-; [exact D|]. eapply grows_trans; [exact D|apply local_grows, local_convert].
    + intros K. rewrite factor_std in H by exact K. cbv zeta in H. destruct (is_std _); [|discriminate]. inv_done H.
      apply IE in E. apply done_inv in H. destruct H as (-> & ->).
      assert (D : grows (getToken c) (if token (getToken c) =? tLPAREN then getToken (getToken c) else error eLPAREN (getToken c))).
      { destruct (_ =? tLPAREN); [apply grows_get|apply local_grows, local_error]. }
      eapply grows_trans; [apply grows_get|]. eapply grows_trans; [exact D|]. eapply grows_trans; [exact E|].
      apply (grows_trans _ (std_code (tsub (cur c)) t0 c0)); [apply local_grows, local_std|].
      destruct (_ =? tRPAREN); [apply grows_get|apply local_grows, local_error].
    + intros N1 N2 N3 N4 N5. destruct (factor_fixed _ _ _ _ _ H N1 N2 N3 N4 N5) as (d & D & [-> | ->]); apply local_grows in D; [exact D|].
      eapply grows_trans; [exact D|apply grows_get].
Qed.

(** ** Steps without errors *)

Lemma error_not_clean e c : errs (error e c) = errs c -> False.
Proof. cbn. intros H. apply (f_equal (@length Z)) in H. rewrite app_length in H. cbn in H. lia. Qed.
Lemma error_if_clean b e c : errs (error_if b e c) = errs c -> b = false.
Proof. destruct b; [intros H; destruct (error_not_clean _ _ H)|reflexivity]. Qed.
Lemma clean_split a b c : local a b -> local b c -> errs c = errs a -> errs b = errs a /\ errs c = errs b.
Proof. intros A B. apply grows_clean; apply local_grows; assumption. Qed.

Lemma negate_clean t c : errs (negate t c) = errs c -> is16 t || is32 t = true.
Proof. destruct t; try reflexivity; intros H; destruct (error_not_clean _ _ H). Qed.

Lemma add_clean op t1 t2 c : is_addop op = true -> term_mix t1 t2 = true -> class_of t1 <> None ->
  (op =? tPLUS) && teq t1 xChar = false ->
  errs (add_op op t1 c) = errs c ->
  exists o, (forall t, tk t = op -> spells_add t o) /\ lax_add o t1 t2 = Some t1.
Proof.
  intros I M C P H. unfold is_addop in I. apply existsb_exists in I. destruct I as (x & I & E). apply Z.eqb_eq in E. subst x.
  cbn [In] in I. destruct I as [<-|[<-|[<-|[<-|[<-|[<-|[]]]]]]].
  - exists Plus. split; [intros t T; exact T|]. destruct t1; try (exfalso; apply C; reflexivity); try discriminate P;
      try (destruct (error_not_clean _ _ H)); destruct t2; try discriminate M; reflexivity.
  - exists Minus. split; [intros t T; exact T|]. destruct t1; try (exfalso; apply C; reflexivity);
      try (destruct (error_not_clean _ _ H)); destruct t2; try discriminate M; reflexivity.
  - exists Or. split; [intros t T; left; exact T|]. destruct t1; try (exfalso; apply C; reflexivity);
      try (destruct (error_not_clean _ _ H)); destruct t2; try discriminate M; reflexivity.
  - exists Xor. split; [intros t T; exact T|]. destruct t1; try (exfalso; apply C; reflexivity);
      try (destruct (error_not_clean _ _ H)); destruct t2; try discriminate M; reflexivity.
  - destruct (error_not_clean _ _ H).
  - exists Or. split; [intros t T; right; exact T|]. destruct t1; try (exfalso; apply C; reflexivity);
      try (destruct (error_not_clean _ _ H)); destruct t2; try discriminate M; reflexivity.
Qed.

Lemma mul_clean op t1 t2 c : is_mulop op = true -> class_of t1 <> None ->
  (is_shift op = true -> teq t1 t2 = true /\ among t2 [xLongInteger; xLongWord; xUnknown] = false) ->
  errs (mul_op op t1 c) = errs c ->
  exists o, (forall t, tk t = op -> spells_mul t o) /\ lax_mul o t1 t2 = Some t1 /\
    is_shift op = match o with Shl | Shr => true | _ => false end.
Proof.
  intros I C S H. unfold is_mulop in I. apply existsb_exists in I. destruct I as (x & I & E). apply Z.eqb_eq in E. subst x.
  assert (K : forall o, lax_mul o t1 t2 = Some t1 -> is_shift op = match o with Shl | Shr => true | _ => false end ->
     (forall t, tk t = op -> spells_mul t o) ->
     exists o, (forall t, tk t = op -> spells_mul t o) /\ lax_mul o t1 t2 = Some t1 /\
       is_shift op = match o with Shl | Shr => true | _ => false end) by eauto.
  cbn [In] in I. destruct I as [<-|[<-|[<-|[<-|[<-|[<-|[<-|[<-|[]]]]]]]]].
  - apply (K Times); [|reflexivity|intros t T; exact T]. destruct t1; try reflexivity; destruct (error_not_clean _ _ H).
  - apply (K Div); [|reflexivity|intros t T; exact T]. destruct t1; try reflexivity; destruct (error_not_clean _ _ H).
  - destruct (error_not_clean _ _ H).
  - apply (K Mod); [|reflexivity|intros t T; exact T]. destruct t1; try reflexivity; destruct (error_not_clean _ _ H).
  - apply (K And); [|reflexivity|intros t T; left; exact T]. destruct t1; try reflexivity; destruct (error_not_clean _ _ H).
  - apply (K Shl); [|reflexivity|intros t T; exact T]. destruct (S eq_refl) as (Q & L). apply teq_true in Q. subst t2.
    destruct t1; try discriminate L; try reflexivity; destruct (error_not_clean _ _ H).
  - apply (K Shr); [|reflexivity|intros t T; exact T]. destruct (S eq_refl) as (Q & L). apply teq_true in Q. subst t2.
    destruct t1; try discriminate L; try reflexivity; destruct (error_not_clean _ _ H).
  - apply (K And); [|reflexivity|intros t T; right; exact T]. destruct t1; try reflexivity; destruct (error_not_clean _ _ H).
Qed.

Lemma relation_inv k r : relation k = Some r -> exists o, k = rel_token o /\ r = rel_ops o.
Proof.
  unfold relation. intros H.
  repeat match type of H with (if ?k =? ?v then _ else _) = _ => destruct (Z.eqb_spec k v); [subst k|] end;
    try discriminate H; apply some_eq in H; subst r.
  1: exists Equal. 2: exists Unequal. 3: exists Less. 4: exists LessEq. 5: exists Greater. 6: exists GreaterEq. all: auto.
Qed.

Lemma pair_inv {A B} (a a' : A) (b b' : B) : (a, b) = (a', b') -> a' = a /\ b' = b.
Proof. intros H. split; congruence. Qed.
Lemma compare_clean r t1 t2 c t c' : compare (rel_ops r) t1 t2 c = (t, c') -> errs c' = errs c ->
  class_of t1 <> None -> lax_rel r t1 t2 = Some t.
Proof.
  intros H E C.
  destruct t1; try (exfalso; apply C; reflexivity); destruct t2, r; apply pair_inv in H; destruct H as (-> & ->);
    try reflexivity; destruct (error_not_clean eEXPRTYPE c E).
Qed.
Lemma lax_rel_class r a b t : lax_rel r a b = Some t -> class_of a <> None -> class_of t <> None.
Proof.
  intros H C. destruct a; try (exfalso; apply C; reflexivity); destruct b, r; try discriminate H; apply some_eq in H; subst t; discriminate.
Qed.
Lemma check_clean f t c : errs (check_type f t c) = errs c -> asked f t = true.
Proof.
  unfold check_type, asked. intros H. apply error_if_clean in H. rewrite !same_teq.
  destruct (teq f xUnknown), (teq f t), (teq f xAnyOrdinal); try reflexivity; discriminate H.
Qed.

(** ** What is accepted is in the grammar *)

Definition wfs (c : comp) : Prop := Forall wf_tok (toks c).
Definition Acc {A} (run : comp -> res) (g : list tok -> A -> Prop) (ty : A -> option etype) : Prop :=
  forall c t c', run c = Done t c' -> errs c' = errs c -> wfs c ->
    exists ts x, toks c = ts ++ toks c' /\ g ts x /\ ty x = Some t /\ class_of t <> None.

Lemma wfs_app c ts c' : wfs c -> toks c = ts ++ toks c' -> wfs c'.
Proof. unfold wfs. intros H E. rewrite E in H. apply Forall_app in H. apply H. Qed.
Lemma at_token c : token c <> 0 -> exists t rest, toks c = t :: rest /\ token c = tk t /\ cur c = t /\ toks (getToken c) = rest /\ errs (getToken c) = errs c.
Proof.
  unfold token, cur. destruct (toks c) as [|t rest] eqn:E; cbn [hd]; intros H; [destruct H; reflexivity|].
  exists t, rest. repeat split; unfold getToken; cbn; rewrite ?E; reflexivity.
Qed.
Lemma local_errs a b : local a b -> errs b = errs a -> errs b = errs a /\ toks b = toks a.
Proof. intros (_ & H). auto. Qed.
Lemma toks_local a b : local a b -> toks b = toks a.
Proof. intros (_ & H). exact H. Qed.

Lemma var_accepted c t rest k c' d : toks c = t :: rest -> wf_tok t -> tk t = kind_of k -> ~ In k [xUnknown; xAnyOrdinal] ->
  c' = getToken d -> local c d ->
  exists ts x, toks c = ts ++ toks c' /\ gfactor ts x /\ (forall f, flax f x = Some k) /\ class_of k <> None.
Proof.
  intros T W K N -> L. exists [t], (FVar (mkVar k (sLevel (tsym t)) (vOffset (tsym t)))). repeat split.
  - rewrite T. cbn. rewrite (toks_local _ _ L), T. reflexivity.
  - apply g_var. repeat split; try assumption. cbn. apply (proj2 W k N K).
  - destruct k; try discriminate; exfalso; apply N; cbn; auto.
Qed.

Lemma fixed_accepted n f c t c' : factor (S n) f c = Done t c' -> errs c' = errs c -> wfs c ->
  token c <> tLPAREN -> token c <> tNOT -> token c <> tTILDE -> token c <> sTYPE -> token c <> tSTDFUNC ->
  exists ts x, toks c = ts ++ toks c' /\ gfactor ts x /\ flax f x = Some t /\ class_of t <> None.
Proof.
  intros H E W N1 N2 N3 N4 N5.
  destruct (Z.eq_dec (token c) 0) as [Z|Z].
  { exfalso. cbn [factor] in H. rewrite Z in H. apply done_inv in H. destruct H as (-> & ->). apply (error_not_clean _ _ E). }
  destruct (at_token c Z) as (tok & rest & T & K & Cu & G & _).
  assert (Wt : wf_tok tok) by (unfold wfs in W; rewrite T in W; inversion W; assumption).
  assert (V : forall k d, ~ In k [xUnknown; xAnyOrdinal] -> token c = kind_of k -> t = k /\ c' = getToken d -> local c d ->
     exists ts x, toks c = ts ++ toks c' /\ gfactor ts x /\ flax f x = Some t /\ class_of t <> None).
  { intros k d Nk Tk (-> & Ed) L. destruct (var_accepted c tok rest k c' d T Wt ltac:(congruence) Nk Ed L) as (ts & x & A & B & C & D). eauto 6. }
  assert (NI : forall k, class_of k <> None -> ~ In k [xUnknown; xAnyOrdinal]).
  { intros k Hk [<-|[<-|[]]]; apply Hk; reflexivity. }
  assert (Q : forall d x, local c d -> t = match x with FInt z => lax_const f z | FBool _ => xBoolean | _ => xChar end ->
     match x with FInt _ | FBool _ | FChar _ => True | _ => False end ->
     gfactor [tok] x -> c' = getToken d -> 
     exists ts x, toks c = ts ++ toks c' /\ gfactor ts x /\ flax f x = Some t /\ class_of t <> None).
  { intros d x L Et Ex Gx Ed. exists [tok], x. repeat split; [|exact Gx|subst t; destruct x; try contradiction; reflexivity|].
    - rewrite T, Ed. unfold getToken. cbn. rewrite (toks_local _ _ L), T. reflexivity.
    - subst t. destruct x; try contradiction; try discriminate. unfold lax_const.
      destruct (is32 f) eqn:F; [destruct f; try discriminate F; discriminate|]. ifs; discriminate. }
  cbn [factor] in H.
  destruct (token c =? tIDENT). { apply done_inv in H. destruct H as (-> & ->). destruct (error_not_clean _ _ E). }
  destruct (Z.eqb_spec (token c) tINT_CONST) as [Tk|_].
  { destruct (int_const f (tval (cur c)) c) as [ty d] eqn:I. apply done_inv in H. destruct H as (-> & ->).
    apply (Q d (FInt (tval tok))); auto.
    - replace d with (snd (int_const f (tval (cur c)) c)) by (rewrite I; reflexivity). apply local_const.
    - replace ty with (fst (int_const f (tval (cur c)) c)) by (rewrite I; reflexivity). rewrite Cu. unfold int_const, lax_const.
      destruct f; cbn [among existsb teq orb is32 class_of longs same andb]; destruct (tval tok <=? 65535), (tval tok <=? 255); reflexivity.
    - apply g_int; congruence. }
  destruct (Z.eqb_spec (token c) tBOOLEAN_CONST) as [Tk|_].
  { apply done_inv in H. destruct (proj1 Wt ltac:(congruence)) as [B|B].
    - refine (Q _ (FBool true) _ (proj1 H) I _ (proj2 H)); [apply local_emit|]. apply g_bool; congruence.
    - refine (Q _ (FBool false) _ (proj1 H) I _ (proj2 H)); [apply local_emit|]. apply g_bool; congruence. }
  destruct (Z.eqb_spec (token c) tCHAR_CONST) as [Tk|_].
  { apply done_inv in H. refine (Q _ (FChar (tval tok)) _ (proj1 H) I _ (proj2 H)); [apply local_emit|]. apply g_char; congruence. }
  destruct (Z.eqb_spec (token c) sINT) as [Tk|_].
  { apply done_inv in H. apply (V xInteger _ (NI xInteger ltac:(discriminate)) Tk H (local_ref _ _ _)). }
  destruct (Z.eqb_spec (token c) sWORD) as [Tk|_].
  { apply done_inv in H. apply (V xWord _ (NI xWord ltac:(discriminate)) Tk H (local_ref _ _ _)). }
  destruct (Z.eqb_spec (token c) sBOOLEAN) as [Tk|_].
  { apply done_inv in H. apply (V xBoolean _ (NI xBoolean ltac:(discriminate)) Tk H (local_ref _ _ _)). }
  destruct (Z.eqb_spec (token c) sSHORTINT) as [Tk|_].
  { apply done_inv in H. apply (V xShortInteger _ (NI xShortInteger ltac:(discriminate)) Tk H (local_ref _ _ _)). }
  destruct (Z.eqb_spec (token c) sSHORTWORD) as [Tk|_].
  { apply done_inv in H. apply (V xShortWord _ (NI xShortWord ltac:(discriminate)) Tk H (local_ref _ _ _)). }
  destruct (Z.eqb_spec (token c) sCHAR) as [Tk|_].
  { apply done_inv in H. apply (V xChar _ (NI xChar ltac:(discriminate)) Tk H (local_ref _ _ _)). }
  destruct (Z.eqb_spec (token c) sLONGINT) as [Tk|_].
  { apply done_inv in H. apply (V xLongInteger _ (NI xLongInteger ltac:(discriminate)) Tk H (local_trans _ _ _ (local_emit _ _ _ _) (local_ref _ _ _))). }
  destruct (Z.eqb_spec (token c) sLONGWORD) as [Tk|_].
  { apply done_inv in H. apply (V xLongWord _ (NI xLongWord ltac:(discriminate)) Tk H (local_trans _ _ _ (local_emit _ _ _ _) (local_ref _ _ _))). }
  replace (token c =? tLPAREN) with false in H by lia.
  replace ((token c =? tTILDE) || (token c =? tNOT)) with false in H by lia.
  replace (token c =? sTYPE) with false in H by lia.
  replace (token c =? tSTDFUNC) with false in H by lia.
  destruct (existsb _ _); [discriminate|]. apply done_inv in H. destruct H as (-> & ->). destruct (error_not_clean _ _ E).
Qed.
