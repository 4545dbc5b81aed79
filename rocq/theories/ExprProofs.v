(** Compilation of expressions: every well-typed expression is accepted and its
    code computes its value. *)

From Coq Require Import ZArith Bool List Lia ZifyBool.
From Verif Require Import Words WordLemmas State StateLemmas Opcodes EncodeModel SetModel LongModel Machine VmSpec
  LongSpec VmProofs MemProofs MultiProofs LongProofs ExprModel ExprSpec ExprRun ExprOps ExprLoad.
Import ListNotations.
Open Scope Z_scope.

(** ** Unfolding the parser *)

Lemma expression_S n find c : expression (S n) find c =
  bindr (simple_expression n find c) (fun t1 c =>
    if token c =? tIN then NotModelled else
    match relation (token c) with
    | None => Done t1 (check_type find t1 c)
    | Some r =>
      bindr (simple_expression n find (getToken c)) (fun t2 c =>
      let '(t, c) := compare r t1 t2 c in
      Done t (check_type find t c))
    end).
Proof. reflexivity. Qed.
Lemma simple_S n find c : simple_expression (S n) find c =
    let signed := (token c =? tPLUS) || (token c =? tMINUS) in
    let minus := token c =? tMINUS in
    let c := if signed then getToken c else c in
    bindr (term n find c) (fun t1 c =>
    let c := if minus then negate t1 c else c in
    terms n (if teq find xUnknown then t1 else find) t1 c).
Proof. reflexivity. Qed.
Lemma terms_S n find t1 c : terms (S n) find t1 c =
    let operation := token c in
    if is_addop operation then
      if (operation =? tPLUS) && teq t1 xChar then NotModelled else
      bindr (term n find (getToken c)) (fun t2 c =>
      let c := error_if (negb (term_mix t1 t2)) eTERMTYPE c in
      terms n find t1 (add_op operation t1 c))
    else Done t1 c.
Proof. reflexivity. Qed.
Lemma term_S n find c : term (S n) find c = bindr (factor n find c) (fun t1 c => factors n find t1 c).
Proof. reflexivity. Qed.
Lemma factors_S n find t1 c : factors (S n) find t1 c =
    let operation := token c in
    if is_mulop operation then
      if is_shift operation then
        bindr (factor n xAnyOrdinal (getToken c)) (fun t2 c =>
        let bad := among t2 [xLongInteger; xLongWord; xUnknown] in
        let c := error_if bad eSHIFTTYPE c in
        let t2 := if bad then xInteger else t2 in
        let c := error_if (negb (teq t1 t2)) eFACTORTYPE c in
        factors n find t1 (mul_op operation t1 c))
      else
        bindr (factor n find (getToken c)) (fun t2 c =>
        factors n find t1 (mul_op operation t1 c))
    else Done t1 c.
Proof. reflexivity. Qed.

Lemma factor_int n find c : token c = tINT_CONST -> factor (S n) find c =
  (let '(ty, c') := int_const find (tval (cur c)) c in Done ty (getToken c')).
Proof. intros E. cbn [factor]. rewrite E. reflexivity. Qed.
Lemma factor_bool n find c : token c = tBOOLEAN_CONST ->
  factor (S n) find c = Done xBoolean (getToken (data_op oPUSH (s32 (tval (cur c))) c)).
Proof. intros E. cbn [factor]. rewrite E. reflexivity. Qed.
Lemma factor_char n find c : token c = tCHAR_CONST ->
  factor (S n) find c = Done xChar (getToken (data_op oPUSH (s32 (tval (cur c))) c)).
Proof. intros E. cbn [factor]. rewrite E. reflexivity. Qed.
Lemma factor_paren n find c : token c = tLPAREN -> factor (S n) find c =
      bindr (expression n xUnknown (getToken c)) (fun ty c =>
      if token c =? tRPAREN then Done ty (getToken c) else Done ty (error eRPAREN c)).
Proof. intros E. cbn [factor]. rewrite E. reflexivity. Qed.
Lemma factor_not n find c : token c = tNOT \/ token c = tTILDE -> factor (S n) find c =
      bindr (factor n find (getToken c)) (fun ty c =>
      let c := error_if (negb (among ty int16s || among ty longs || teq ty xBoolean)) eFACTORTYPE c in
      Done ty (if among ty longs then long_op 0x45 c else simple_op oNOT c)).
Proof. intros [E|E]; cbn [factor]; rewrite E; reflexivity. Qed.
Lemma factor_cast n find c : token c = sTYPE -> factor (S n) find c =
      let v := tsym (cur c) in
      let c := getToken c in
      if negb (token c =? tLPAREN) then Done xUnknown (error eLPAREN c) else
      match map_type (tType v) with
      | None => NotModelled
      | Some new =>
        bindr (expression n xUnknown (getToken c)) (fun old c =>
        let c := if token c =? tRPAREN then getToken c else error eRPAREN c in
        if teq old xUnknown then Done xUnknown c else Done new (convert new old c))
      end.
Proof. intros E. cbn [factor]. rewrite E. reflexivity. Qed.
Lemma factor_std n find c : token c = tSTDFUNC -> factor (S n) find c =
      let f := tsub (cur c) in
      if is_std f then
        let c := getToken c in
        let c := if token c =? tLPAREN then getToken c else error eLPAREN c in
        bindr (expression n (std_find f) c) (fun ty c =>
        let c := std_code f ty c in
        Done (std_type f ty) (if token c =? tRPAREN then getToken c else error eRPAREN c))
      else NotModelled.
Proof. intros E. cbn [factor]. rewrite E. reflexivity. Qed.

(** ** Small facts *)

Lemma token_at c t rest : toks c = t :: rest -> token c = tk t /\ cur c = t.
Proof. unfold token, cur. intros ->. auto. Qed.
Lemma get_at c t rest : toks c = t :: rest -> getToken c = after c rest [].
Proof. unfold getToken, after. intros ->. rewrite app_nil_r. reflexivity. Qed.
Lemma get_code c t rest ps : toks c = t :: rest -> getToken (code ps c) = after c rest ps.
Proof. unfold getToken, after, code. cbn. intros ->. reflexivity. Qed.
Lemma after_after c r1 r2 a b : after (after c r1 a) r2 b = after c r2 (a ++ b).
Proof. unfold after. cbn. rewrite app_assoc. reflexivity. Qed.
Lemma append_after c r a p : append p (after c r a) = after c r (a ++ [p]).
Proof. unfold append, after. cbn. rewrite app_assoc. reflexivity. Qed.
Lemma after_nil c r : toks c = r -> after c r [] = c.
Proof. destruct c; cbn. intros <-. unfold after. cbn. rewrite app_nil_r. reflexivity. Qed.
Lemma after_toks c r a : toks (after c r a) = r.
Proof. reflexivity. Qed.
Lemma after_level c r a : g_level (after c r a) = g_level c.
Proof. reflexivity. Qed.
Lemma get_after c r t a : getToken (after c (t :: r) a) = after c r a.
Proof. reflexivity. Qed.
Lemma token_after c r a : token (after c r a) = tk (hd eoftok r).
Proof. reflexivity. Qed.

Lemma teq_true a b : teq a b = true <-> a = b.
Proof. destruct a, b; cbn; split; intros; try discriminate; reflexivity. Qed.
Lemma same_teq a b : same a b = teq a b.
Proof. unfold same. destruct (teq a b); reflexivity. Qed.

Lemma grammar_nonempty :
  (forall ts f, gfactor ts f -> (1 <= length ts)%nat) /\ (forall ts f, gterm ts f -> (1 <= length ts)%nat) /\
  (forall ts f, gsimple ts f -> (1 <= length ts)%nat) /\ (forall ts f, gexpr ts f -> (1 <= length ts)%nat).
Proof. apply grammar_ind; intros; rewrite ?app_length; cbn [length]; rewrite ?app_length; cbn [length]; lia. Qed.

Lemma kind_values t : In (kind_of t) [-1; sINT; sWORD; sSHORTINT; sSHORTWORD; sLONGINT; sLONGWORD; sCHAR; sBOOLEAN].
Proof. destruct t; cbn; tauto. Qed.
Lemma kind_sign t : kind_of t <> tPLUS /\ kind_of t <> tMINUS.
Proof. destruct t; split; discriminate. Qed.

Lemma factor_first ts f : gfactor ts f -> forall r, tk (hd eoftok (ts ++ r)) <> tPLUS /\ tk (hd eoftok (ts ++ r)) <> tMINUS.
Proof.
  intros H r. destruct H; cbn [hd app].
  4: { destruct H as (-> & _). apply kind_sign. }
  all: try (rewrite H; split; discriminate).
  all: try (destruct H as (-> & _); split; discriminate).
  all: destruct H as [-> | ->]; split; discriminate.
Qed.
Lemma term_first : forall ts t, gterm ts t -> forall r, tk (hd eoftok (ts ++ r)) <> tPLUS /\ tk (hd eoftok (ts ++ r)) <> tMINUS.
Proof.
  fix IH 3. intros ts t H r. destruct H as [ts f F|ts t a o us f H S F].
  - apply (factor_first _ _ F).
  - rewrite <- app_assoc. apply (IH _ _ H).
Qed.

Lemma ftype_class : 
  (forall f ctx t, ftype ctx f = Some t -> class_of t <> None) /\
  (forall f ctx t, ttype ctx f = Some t -> class_of t <> None) /\
  (forall f ctx t, stype ctx f = Some t -> class_of t <> None) /\
  (forall f ctx t, etype_of ctx f = Some t -> class_of t <> None).
Proof.
  assert (C : forall o a b t, type_mul o a b = Some t -> class_of a <> None -> class_of t <> None).
  { intros o a b t H A. destruct o; cbn [type_mul] in H; apply if_some in H; destruct H as (_ & <-); exact A. }
  assert (D : forall o a b t, type_add o a b = Some t -> class_of a <> None -> class_of t <> None).
  { intros o a b t H A. destruct o; cbn [type_add] in H; apply if_some in H; destruct H as (_ & <-); exact A. }
  apply syntax_ind.
  - intros n ctx t H. cbn [ftype] in H. unfold type_const in H.
    destruct (n <? 0); [discriminate|]. destruct (is32 ctx) eqn:E.
    + destruct (inr ctx n); [|discriminate]. injection H as <-. destruct ctx; discriminate.
    + destruct (n <=? 32767).
      * injection H as <-. destruct (same ctx xShortInteger && (n <=? 255)), (same ctx xShortWord); discriminate.
      * destruct (n <=? 65535); [destruct (same ctx xShortWord); [|discriminate]; injection H as <-; discriminate|].
        destruct (n <=? 2147483647); [|discriminate]. injection H as <-. discriminate.
  - intros b ctx t [= <-]. discriminate.
  - intros n ctx t H. cbn [ftype] in H. apply if_some in H. destruct H as (_ & <-). discriminate.
  - intros x ctx t H. cbn [ftype] in H. destruct (class_of (vty x)) eqn:E; [|discriminate]. injection H as <-. congruence.
  - intros e IH ctx t H. apply (IH _ _ H).
  - intros f IH ctx t H. cbn [ftype] in H. apply bind_some in H. destruct H as (u & U & H). apply if_some in H.
    destruct H as (_ & <-). apply (IH _ _ U).
  - intros k e IH ctx t H. cbn [ftype] in H. apply bind_some in H. destruct H as (u & U & H).
    destruct (is_logical k || is_logical u); [discriminate|]. destruct (class_of k) eqn:E; [|discriminate]. injection H as <-. congruence.
  - intros g e IH ctx t H. cbn [ftype] in H. apply bind_some in H. destruct H as (u & U & H). apply IH in U.
    destruct g; cbn [type_fun] in H; apply if_some in H; destruct H as (_ & <-); try discriminate; exact U.
  - intros f IH ctx t H. apply (IH _ _ H).
  - intros t1 IH1 o f IH2 ctx t H. cbn [ttype] in H. apply bind_some in H. destruct H as (a & A & H).
    apply bind_some in H. destruct H as (b & B & H). apply (C _ _ _ _ H). apply (IH1 _ _ A).
  - intros m t1 IH ctx t H. cbn [stype] in H. apply bind_some in H. destruct H as (a & A & H).
    apply IH in A. destruct m; [apply if_some in H; destruct H as (_ & <-)|injection H as <-]; exact A.
  - intros s IH1 o t1 IH2 ctx t H. cbn [stype] in H. apply bind_some in H. destruct H as (a & A & H).
    apply bind_some in H. destruct H as (b & B & H). apply (D _ _ _ _ H). apply (IH1 _ _ A).
  - intros s IH ctx t H. cbn [etype_of] in H. apply bind_some in H. destruct H as (a & A & H).
    apply if_some in H. destruct H as (_ & <-). apply (IH _ _ A).
  - intros s1 IH1 r s2 IH2 ctx t H. cbn [etype_of] in H. apply bind_some in H. destruct H as (a & A & H).
    apply bind_some in H. destruct H as (b & B & H). apply bind_some in H. destruct H as (u & U & H).
    apply if_some in H. destruct H as (_ & <-). rewrite (type_rel_bool _ _ _ _ U). discriminate.
Qed.

Lemma words_length t z : (1 <= length (words t z) <= 2)%nat.
Proof. unfold words. destruct (is32 t); cbn; lia. Qed.

Lemma check_ok ctx t c : class_of t <> None -> asked ctx t = true -> check_type ctx t c = c.
Proof.
  intros C A. unfold asked in A. rewrite !same_teq in A. unfold check_type.
  replace (is_ordinal t) with true by (destruct t; try reflexivity; exfalso; apply C; reflexivity).
  destruct (teq ctx xUnknown), (teq ctx xAnyOrdinal), (teq ctx t); try discriminate A; reflexivity.
Qed.

(** ** Variables *)

Lemma var_sound lev x : class_of (vty x) <> None -> addressable lev x ->
  exists ps, (forall t c rest n ctx, spells_var t x -> g_level c = lev -> toks c = t :: rest ->
      factor (S n) ctx c = Done (vty x) (after c rest ps)) /\
    forall env, computes lev ps 2 [x] env (words (vty x) (env x)).
Proof.
  intros C A.
  assert (W : forall opc w, In (opc, w) [(oLDS, Word); (oLDSB, SByte); (oULDSB, UByte)] -> is32 (vty x) = false ->
    (forall z s a, contains s (vty x) a z -> element s w a (z mod 65536)) ->
    (forall c n ctx, token c = kind_of (vty x) -> factor (S n) ctx c = Done (vty x) (getToken (stack_ref opc (tsym (cur c)) c))) ->
    exists ps, (forall t c rest n ctx, spells_var t x -> g_level c = lev -> toks c = t :: rest ->
        factor (S n) ctx c = Done (vty x) (after c rest ps)) /\
      forall env, computes lev ps 2 [x] env (words (vty x) (env x))).
  { intros opc w I L E F. exists [refer lev opc x]. split.
    - intros t c rest n ctx (K & S1 & S2 & S3 & _) G H. destruct (token_at _ _ _ H) as (T & U).
      rewrite F by congruence. rewrite U.
      rewrite (stack_ref_eq lev opc _ x c); auto.
      + rewrite append_code, (get_code _ _ _ _ H). reflexivity.
      + cbn [In] in *. destruct I as [[= <- <-]|[[= <- <-]|[[= <- <-]|[]]]]; tauto.
    - intros env. unfold words. rewrite L. apply (computes_weaken lev env _ 1 2 [x] [x]); [|lia|apply incl_refl].
      apply (load_word lev opc w); auto. }
  assert (L : is32 (vty x) = true ->
    (forall c n ctx, token c = kind_of (vty x) -> factor (S n) ctx c =
       Done (vty x) (getToken (stack_ref oLDSM (tsym (cur c)) (data_op oPUSH (vSize (tsym (cur c))) c)))) ->
    exists ps, (forall t c rest n ctx, spells_var t x -> g_level c = lev -> toks c = t :: rest ->
        factor (S n) ctx c = Done (vty x) (after c rest ps)) /\
      forall env, computes lev ps 2 [x] env (words (vty x) (env x))).
  { intros L F. exists [lpush 4; refer lev oLDSM x]. split.
    - intros t c rest n ctx (K & S1 & S2 & S3 & _) G H. destruct (token_at _ _ _ H) as (T & U).
      rewrite F by congruence. rewrite U.
      replace (vSize (tsym t)) with 4 by (rewrite S3; destruct (vty x); try discriminate L; reflexivity).
      rewrite emit_push by lia.
      rewrite (stack_ref_eq lev oLDSM _ x _); auto; [|cbn [In]; tauto].
      unfold append, after, getToken. cbn. rewrite H, <- app_assoc. reflexivity.
    - intros env. unfold words. rewrite L. apply load_long; auto. }
  destruct (vty x) eqn:T; try (exfalso; apply C; reflexivity).
  - apply (W oLDS Word); [cbn; tauto|reflexivity|intros z s a H; exact H|]. intros c n ctx E. cbn [factor]. rewrite E. reflexivity.
  - apply (W oLDS Word); [cbn; tauto|reflexivity|intros z s a H; exact H|]. intros c n ctx E. cbn [factor]. rewrite E. reflexivity.
  - apply (W oLDSB SByte); [cbn; tauto|reflexivity|intros z s a (v & H & <-); exact H|]. intros c n ctx E. cbn [factor]. rewrite E. reflexivity.
  - apply (W oULDSB UByte); [cbn; tauto|reflexivity|intros z s a (v & H & <-); exact H|]. intros c n ctx E. cbn [factor]. rewrite E. reflexivity.
  - apply L; [reflexivity|]. intros c n ctx E. cbn [factor]. rewrite E. reflexivity.
  - apply L; [reflexivity|]. intros c n ctx E. cbn [factor]. rewrite E. reflexivity.
  - apply (W oULDSB UByte); [cbn; tauto|reflexivity|intros z s a (v & H & <-); exact H|]. intros c n ctx E. cbn [factor]. rewrite E. reflexivity.
  - apply (W oLDS Word); [cbn; tauto|reflexivity|intros z s a H; exact H|]. intros c n ctx E. cbn [factor]. rewrite E. reflexivity.
Qed.
