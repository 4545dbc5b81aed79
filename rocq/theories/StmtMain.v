(** The code of a statement does what the statement means. *)

From Coq Require Import ZArith Bool List Lia ZifyBool.
From Verif Require Import Words WordLemmas State StateLemmas Opcodes EncodeModel SetModel LongModel Machine VmSpec VmProofs MemProofs MultiProofs
  OptSpec OptUnaryStep ExprModel ExprSpec ExprRun ExprOps ExprLoad ExprProofs ExprMain ExprTotal StmtModel StmtSpec StmtPlain StmtRun StmtStore StmtStep.
Import ListNotations.
Open Scope Z_scope.

(** ** Values depend on the variables of the expression only *)

Section Equations.
  Variables (r : env) (ctx : etype).
  Lemma fvalue_paren e : fvalue r ctx (FParen e) = evalue r xUnknown e.
  Proof. reflexivity. Qed.
  Lemma fvalue_not f : fvalue r ctx (FNot f) = bind (ftype ctx f) (fun t => bind (fvalue r ctx f) (fun x => value_not t x)).
  Proof. reflexivity. Qed.
  Lemma fvalue_cast t e : fvalue r ctx (FCast t e) = bind (evalue r xUnknown e) (fun x => limit t x).
  Proof. reflexivity. Qed.
  Lemma fvalue_fun g e : fvalue r ctx (FFun g e) =
    bind (etype_of (fun_ctx g) e) (fun t => bind (evalue r (fun_ctx g) e) (fun x => value_fun g t x)).
  Proof. reflexivity. Qed.
  Lemma tvalue_bin t o f : tvalue r ctx (TBin t o f) = bind (ttype ctx t) (fun a => bind (tvalue r ctx t) (fun x =>
        bind (fvalue r (match o with Shl | Shr => xAnyOrdinal | _ => ctx end) f) (fun y => value_mul o a x y))).
  Proof. reflexivity. Qed.
  Lemma svalue_term m t : svalue r ctx (STerm m t) = bind (ttype ctx t) (fun a => bind (tvalue r ctx t) (fun x =>
        if m then limit a (- x) else Some x)).
  Proof. reflexivity. Qed.
  Lemma svalue_bin s o t : svalue r ctx (SBin s o t) = bind (stype ctx s) (fun a => bind (svalue r ctx s) (fun x =>
        bind (tvalue r (of_context ctx a) t) (fun y => value_add o a x y))).
  Proof. reflexivity. Qed.
  Lemma evalue_rel s1 o s2 : evalue r ctx (ERel s1 o s2) = bind (stype ctx s1) (fun a => bind (stype ctx s2) (fun b =>
        bind (svalue r ctx s1) (fun x => bind (svalue r ctx s2) (fun y => value_rel o (common a b) x y)))).
  Proof. reflexivity. Qed.
End Equations.

Lemma value_ext r r' :
  (forall f ctx, (forall x, In x (fvars f) -> r x = r' x) -> fvalue r ctx f = fvalue r' ctx f) /\
  (forall t ctx, (forall x, In x (tvars t) -> r x = r' x) -> tvalue r ctx t = tvalue r' ctx t) /\
  (forall s ctx, (forall x, In x (svars s) -> r x = r' x) -> svalue r ctx s = svalue r' ctx s) /\
  (forall e ctx, (forall x, In x (evars e) -> r x = r' x) -> evalue r ctx e = evalue r' ctx e).
Proof.
  apply syntax_ind.
  - reflexivity.
  - reflexivity.
  - reflexivity.
  - intros x ctx H. cbn [fvalue]. rewrite (H x) by (cbn; auto). reflexivity.
  - intros e IH ctx H. cbn [fvalue]. apply IH, H.
  - intros f IH ctx H. rewrite !fvalue_not. rewrite (IH ctx H). reflexivity.
  - intros t e IH ctx H. rewrite !fvalue_cast. rewrite (IH _ H). reflexivity.
  - intros g e IH ctx H. rewrite !fvalue_fun. rewrite (IH _ H). reflexivity.
  - intros f IH ctx H. cbn [tvalue]. apply IH, H.
  - intros t IH o f IHf ctx H. rewrite !tvalue_bin. cbn [tvars] in H.
    rewrite (IH ctx) by (intros; apply H, in_or_app; auto). rewrite (IHf _) by (intros; apply H, in_or_app; auto). reflexivity.
  - intros m t IH ctx H. rewrite !svalue_term. rewrite (IH ctx H). reflexivity.
  - intros s IH o t IHt ctx H. rewrite !svalue_bin. cbn [svars] in H.
    rewrite (IH ctx) by (intros; apply H, in_or_app; auto). destruct (stype ctx s) as [a|]; [|reflexivity]. cbn [bind].
    destruct (svalue r' ctx s) as [x|]; [|reflexivity]. cbn [bind].
    rewrite (IHt _) by (intros; apply H, in_or_app; auto). reflexivity.
  - intros s IH ctx H. cbn [evalue]. apply IH, H.
  - intros s1 IH1 o s2 IH2 ctx H. rewrite !evalue_rel. cbn [evars] in H.
    rewrite (IH1 ctx) by (intros; apply H, in_or_app; auto). rewrite (IH2 ctx) by (intros; apply H, in_or_app; auto). reflexivity.
Qed.

(** ** Compilation of single instructions *)

Definition line_ok (t : tok) : Prop := 0 <= tline t <= 65535.

Section Emit.
  Variables (T : list tok) (O : list opType) (E : list Z) (l L C B A : Z).
  Notation K := (mkComp T O E l L C B A).

  Lemma c_data k v : has8 k = false -> has16 k = true -> -32768 <= v <= 65535 ->
    data_op k v K = mkComp T (O ++ [mkOp k 0 (v mod 65536)]) E l L C B A.
  Proof.
    intros H8 H16 V. unfold data_op, emit. rewrite H8, H16. cbn [andb error_if].
    replace ((v <? -32768) || (65535 <? v)) with false by lia. reflexivity.
  Qed.
  Lemma c_label v : 0 <= v <= 65535 -> data_op oLABEL v K = mkComp T (O ++ [mkOp oLABEL 0 v]) E l L C B A.
  Proof. intros V. rewrite c_data by (try reflexivity; lia). rewrite Z.mod_small by lia. reflexivity. Qed.
  Lemma c_jump k v : In k jump_codes -> 0 <= v <= 65535 -> data_op k v K = mkComp T (O ++ [mkOp k 0 v]) E l L C B A.
  Proof.
    intros I V. rewrite c_data; [rewrite Z.mod_small by lia; reflexivity| | |lia];
      cbn [In jump_codes] in I; repeat (destruct I as [<-|I]; [reflexivity|]); destruct I.
  Qed.
  Lemma c_inds v : -32768 <= v <= 65535 -> data_op oINDS v K = mkComp T (O ++ [mkOp oINDS 0 (v mod 65536)]) E l L C B A.
  Proof. intros V. apply c_data; auto. Qed.
  Lemma c_simple k : has8 k = false -> has16 k = false -> simple_op k K = mkComp T (O ++ [mkOp k 0 0]) E l L C B A.
  Proof. intros H8 H16. unfold simple_op, emit. rewrite H8, H16. reflexivity. Qed.
  Lemma c_ref k v x : In k [oLDS; oLDSB; oULDSB; oLDSM; oSTS; oSTSB; oSTSM] ->
    sLevel v = vlev x -> vOffset v = voff x -> addressable L x ->
    stack_ref k v K = mkComp T (O ++ [refer L k x]) E l L C B A.
  Proof. intros I H1 H2 Ad. rewrite (stack_ref_eq L k v x K I H1 H2 eq_refl Ad). reflexivity. Qed.
  Lemma c_count : 0 <= l < 65535 -> count K = mkComp T O E (l + 1) L C B A /\ new_label K = l + 1.
  Proof. intros H. unfold count, new_label, with_label. cbn. rewrite u16_small by lia. auto. Qed.
End Emit.

Lemma c_line T O E l L C B A : line_ok (hd eoftok T) ->
  emit oLINE 0 (tline (cur (mkComp T O E l L C B A))) (mkComp T O E l L C B A) =
  mkComp T (O ++ [mkOp oLINE 0 (tline (hd eoftok T))]) E l L C B A.
Proof.
  unfold line_ok. intros H. change (cur (mkComp T O E l L C B A)) with (hd eoftok T).
  unfold emit. change (has8 oLINE) with true. change (has16 oLINE) with true. cbn [andb error_if].
  replace ((tline (hd eoftok T) <? -32768) || (65535 <? tline (hd eoftok T))) with false by lia.
  cbn [orb Z.ltb Z.compare error_if]. rewrite (u16_small (tline _)) by lia. reflexivity.
Qed.

Lemma c_expect k e t T O E l L C B A : tk t = k -> expect k e (mkComp (t :: T) O E l L C B A) = mkComp T O E l L C B A.
Proof. intros H. unfold expect, token, cur. cbn. rewrite H, Z.eqb_refl. reflexivity. Qed.

Lemma c_get t T O E l L C B A : getToken (mkComp (t :: T) O E l L C B A) = mkComp T O E l L C B A.
Proof. reflexivity. Qed.
Lemma c_token T O E l L C B A : token (mkComp T O E l L C B A) = tk (hd eoftok T).
Proof. reflexivity. Qed.
Lemma c_loop x y z T O E l L C B A : with_loop x y z (mkComp T O E l L C B A) = mkComp T O E l L x y z.
Proof. reflexivity. Qed.
Lemma c_counted T O E l L C B A : 0 <= l < 65535 -> count (mkComp T O E l L C B A) = mkComp T O E (l + 1) L C B A.
Proof. intros H. apply (c_count T O E l L C B A H). Qed.
Lemma c_new T O E l L C B A : 0 <= l < 65535 -> new_label (mkComp T O E l L C B A) = l + 1.
Proof. intros H. apply (c_count T O E l L C B A H). Qed.

Lemma statement_S n c : statement (S n) c = any_statement n (statement n) (statements n) (cases n) c.
Proof. reflexivity. Qed.
Lemma statements_S n c : statements (S n) c = binds (statement n (getToken c)) (fun c =>
    if token c =? tSEMICOLON then statements n c else SDone c).
Proof. reflexivity. Qed.
Lemma cases_S n a b c : cases (S n) a b c = one_case n (statement n) (cases n) a b c.
Proof. reflexivity. Qed.

Lemma follows_ended rest : follows rest -> ended rest.
Proof. unfold follows, ended, continues. intros H K. cbn [In] in H. repeat (destruct H as [H|H]; [rewrite <- H in K; cbn in K; intuition discriminate|]). destruct H. Qed.
Lemma tok_ended t rest k : tk t = k -> In k [tTHEN; tDO; tOF; tTO; tDOWNTO; tUNTIL; tELSE; tEND; tSEMICOLON] -> ended (t :: rest).
Proof.
  unfold ended, continues. cbn [hd]. intros -> H K. cbn [In] in H.
  repeat (destruct H as [H|H]; [subst k; cbn in K; intuition discriminate|]). destruct H.
Qed.

Ltac dispatch H := intros Ln H; unfold any_statement; rewrite c_line by exact Ln; unfold token, cur; cbn [toks hd]; rewrite H; reflexivity.
Section Dispatch.
  Variables (n : nat) (stmt seq : comp -> sres) (more : Z -> Z -> comp -> sres).
  Variables (a : tok) (T : list tok) (O : list opType) (E : list Z) (l L C B A : Z).
  Notation K := (mkComp (a :: T) O E l L C B A).
  Notation K' := (mkComp (a :: T) (O ++ [mkOp oLINE 0 (tline a)]) E l L C B A).
  Lemma any_if : line_ok a -> tk a = tIF -> any_statement n stmt seq more K = if_statement n stmt K'.
  Proof. dispatch H. Qed.
  Lemma any_case : line_ok a -> tk a = tCASE -> any_statement n stmt seq more K = case_statement n more K'.
  Proof. dispatch H. Qed.
  Lemma any_repeat : line_ok a -> tk a = tREPEAT -> any_statement n stmt seq more K = repeat_statement n seq K'.
  Proof. dispatch H. Qed.
  Lemma any_while : line_ok a -> tk a = tWHILE -> any_statement n stmt seq more K = while_statement n stmt K'.
  Proof. dispatch H. Qed.
  Lemma any_for : line_ok a -> tk a = tFOR -> any_statement n stmt seq more K = for_statement n stmt K'.
  Proof. dispatch H. Qed.
  Lemma any_begin : line_ok a -> tk a = tBEGIN -> any_statement n stmt seq more K = binds (seq K') (fun c => SDone (expect tEND eEND c)).
  Proof. dispatch H. Qed.
  Lemma any_std : line_ok a -> tk a = tSTDPROC -> any_statement n stmt seq more K = standard_procedure K'.
  Proof. dispatch H. Qed.
  Lemma any_var x : line_ok a -> spells_var a x -> class_of (vty x) <> None ->
    any_statement n stmt seq more K =
    if is32 (vty x) then large_assignment n (vty x) (tsym a) (getToken K') else assignment n (store_op (vty x)) (vty x) (tsym a) (getToken K').
  Proof.
    intros Ln (H & _ & _ & _ & U) Cl. unfold any_statement; rewrite c_line by exact Ln; unfold token, cur; cbn [toks hd]; rewrite H.
    destruct (vty x); try (elim U; cbn; tauto); reflexivity.
  Qed.
End Dispatch.
Lemma any_empty n stmt seq more T O E l L C B A : line_ok (hd eoftok T) -> follows T ->
  any_statement n stmt seq more (mkComp T O E l L C B A) = SDone (mkComp T (O ++ [mkOp oLINE 0 (tline (hd eoftok T))]) E l L C B A).
Proof.
  intros Ln F. unfold any_statement; rewrite c_line by exact Ln; unfold token, cur; cbn [toks].
  unfold follows in F. cbn [In] in F. repeat (destruct F as [F|F]; [rewrite <- F; cbn; unfold standard_procedure, token, cur; cbn [toks]; rewrite <- F; reflexivity|]). destruct F.
Qed.

Ltac len := cbn [length app] in *; repeat (rewrite app_length in *; cbn [length] in *); lia.
Ltac flat := rewrite <- ?app_assoc; reflexivity.

(** ** Instructions in a run *)

Section Sim.
  Variables (lev : Z) (xs : list var).

  (** What the code [ps] does, with the labels and the adjustment for Continue and
      Break *)
  Definition outcome (adr : var -> Z) (prog : list opType) (i e : nat) (C B A : Z) (s : st) (h : how) (r' : env) : Prop :=
    match h with
    | Normal => exists s', runs prog (i, s) (e, s') /\ moves xs adr s s' [] r'
    | Broke => forall j, labelled prog B j -> exists s', runs prog (i, s) (j, s') /\ effect xs adr s s' A r'
    | Continued => forall j, labelled prog C j -> exists s', runs prog (i, s) (j, s') /\ effect xs adr s s' A r'
    end.
  Definition sim (ps : list opType) (need : Z) (C B A : Z) (M : env -> how -> env -> Prop) : Prop :=
    forall adr links base s0, placed lev xs adr links base s0 -> c_ssz (cf s0) mod 2 = 0 ->
    forall prog i, stands prog i ps -> forall s r h r',
    ready xs adr links base s0 s r -> base <= (sp s + A) / 2 -> room s need -> M r h r' ->
    outcome adr prog i (i + length ps) C B A s h r'.

  Definition usable (x : var) : Prop := In x xs /\ addressable lev x.

  Definition ok_stmt (o : bool) (ts : list tok) (st : stmt) : Prop :=
    forall brk cont, wf_stmt brk cont st -> (forall x, In x (stmt_vars st) -> usable x) -> Forall line_ok ts ->
    forall rest, follows rest -> (o = true -> tk (hd eoftok rest) <> tELSE) -> line_ok (hd eoftok rest) ->
    forall O E l C B A, 0 <= l -> l + 2 * Z.of_nat (length ts) <= 65535 ->
    (brk = true -> 0 < B <= 65535) -> (cont = true -> 0 < C <= 65535) ->
    A <= 0 -> -32768 <= A - 2 * Z.of_nat (length ts) ->
    exists ps l' N, l <= l' <= l + 2 * Z.of_nat (length ts) /\
      (forall n, (N <= n)%nat -> statement n (mkComp (ts ++ rest) O E l lev C B A) = SDone (mkComp rest (O ++ ps) E l' lev C B A)) /\
      sim ps (2 * Z.of_nat (length ts)) C B A (means st).

  Definition ok_stmts (ts : list tok) (ss : stmts) : Prop :=
    forall brk cont, wf_stmts brk cont ss -> (forall x, In x (stmts_vars ss) -> usable x) -> Forall line_ok ts ->
    forall rest, In (tk (hd eoftok rest)) [tEND; tUNTIL] -> line_ok (hd eoftok rest) ->
    forall a O E l C B A, 0 <= l -> l + 2 * Z.of_nat (length ts) <= 65535 ->
    (brk = true -> 0 < B <= 65535) -> (cont = true -> 0 < C <= 65535) ->
    A <= 0 -> -32768 <= A - 2 * Z.of_nat (length ts) ->
    exists ps l' N, l <= l' <= l + 2 * Z.of_nat (length ts) /\
      (forall n, (N <= n)%nat -> statements n (mkComp (a :: ts ++ rest) O E l lev C B A) = SDone (mkComp rest (O ++ ps) E l' lev C B A)) /\
      sim ps (2 * Z.of_nat (length ts)) C B A (means_seq ss).

  (** The cases run with the selector [z] on the stack; behind them is the label
      [e]. *)
  Definition sim_cases (ps : list opType) (need : Z) (C B A e : Z) (T : etype) (M : Z -> env -> how -> env -> Prop) : Prop :=
    forall adr links base s0, placed lev xs adr links base s0 -> c_ssz (cf s0) mod 2 = 0 ->
    forall prog i, stands prog i ps -> labelled prog e (i + length ps) -> forall s r z h r',
    ready xs adr links base s0 s r -> base <= (sp s + A) / 2 -> room s need -> 2 <= sp s -> tops s [z mod 65536] ->
    inr T z = true -> M z r h r' ->
    outcome adr prog i (i + length ps) C B A s h r'.
  Definition ok_cases (ts : list tok) (cs : caselist) : Prop :=
    forall brk cont T, is32 T = false -> wf_cases brk cont T cs -> (forall x, In x (cases_vars cs) -> usable x) -> Forall line_ok ts ->
    forall rest this e O E l C B A, 0 <= this <= 65535 -> 0 <= e <= 65535 ->
    0 <= l -> l + 2 * Z.of_nat (length ts) <= 65535 ->
    (brk = true -> 0 < B <= 65535) -> (cont = true -> 0 < C <= 65535) ->
    A <= -2 -> -32768 <= A - 2 * Z.of_nat (length ts) ->
    exists ps l' N, l <= l' <= l + 2 * Z.of_nat (length ts) /\ hd_error ps = Some (mkOp oLABEL 0 this) /\
      (forall n, (N <= n)%nat -> cases n this e (mkComp (ts ++ rest) O E l lev C B A) = SDone (mkComp rest (O ++ ps) E l' lev C B A)) /\
      sim_cases ps (2 * Z.of_nat (length ts)) C B A e T (means_cases cs).

  (** Expressions *)
  Definition evaluates (pe : list opType) (ts : list tok) (ctx T : etype) (e : expr) : Prop :=
    forall adr links base s0, placed lev xs adr links base s0 -> c_ssz (cf s0) mod 2 = 0 ->
    forall prog i, stands prog i pe -> forall s r z, ready xs adr links base s0 s r -> room s (2 * Z.of_nat (length ts)) ->
    evalue r ctx e = Some z ->
    inr T z = true /\ exists s', runs prog (i, s) ((i + length pe)%nat, s') /\ moves xs adr s s' (words T z) r.
  Lemma ok_expr ts e ctx T : gexpr ts e -> etype_of ctx e = Some T -> (forall x, In x (evars e) -> usable x) ->
    exists ps N, Forall plain ps /\
      (forall n rest O E l C B A, (N <= n)%nat -> ended rest ->
         expression n ctx (mkComp (ts ++ rest) O E l lev C B A) = Done T (mkComp rest (O ++ ps) E l lev C B A)) /\
      evaluates ps ts ctx T e.
  Proof.
    intros G Y U. destruct (grammar_sound lev) as (_ & _ & _ & H).
    destruct (H ts e G ctx T Y) as (ps & N & P & Cd); [intros x Hx; apply (U x Hx)|].
    assert (Pl : Forall plain ps).
    { assert (En : ended []) by (intros Q; cbn in Q; intuition discriminate).
      pose proof (P (mkComp (ts ++ []) [] [] 0 lev 0 0 0) [] N eq_refl En eq_refl ltac:(lia)) as X.
      apply (code_plain _ _ _ _ _ ps X). reflexivity. }
    exists ps, N. split; [exact Pl|]. split.
    - intros n rest O E l C B A Hn En. rewrite (P (mkComp (ts ++ rest) O E l lev C B A) rest n eq_refl En eq_refl Hn). reflexivity.
    - intros adr links base s0 Pc Ev prog i St s r z Rd Rm V. destruct (Cd r z V) as (Iz & Cp). split; [exact Iz|].
      apply (run_expr lev xs adr links base s0 Pc Ev prog i ps (need ts) (evars e) (words T z) s r St Pl Rd); auto.
      intros x Hx. apply (U x Hx).
  Qed.

  Section Outcome.
    Variables (adr : var -> Z) (links : Z -> Prop) (base : Z) (s0 : st).
    Hypothesis P : placed lev xs adr links base s0.
    Notation ready := (ready xs adr links base s0).
    Notation moves := (moves xs adr).
    Lemma outcome_pre prog i i1 e C B A s s1 r r1 h r' : ready s r -> runs prog (i, s) (i1, s1) -> moves s s1 [] r1 -> A <= 0 ->
      outcome adr prog i1 e C B A s1 h r' -> outcome adr prog i e C B A s h r'.
    Proof.
      intros Rd E M HA. unfold outcome. destruct h.
      - intros (s' & E' & M'). exists s'. split; [apply (runs_trans _ _ _ _ E E')|].
        apply (moves_again lev xs adr links base s0 P s s1 [] r r1 r' s' Rd M M').
      - intros H j J. destruct (H j J) as (s' & E' & M'). exists s'. split; [apply (runs_trans _ _ _ _ E E')|].
        replace A with (2 * Z.of_nat (length (@nil Z)) + A) by (cbn; lia).
        apply (effect_after xs adr links base s0 s s1 [] r r1 s' A r' Rd M M'). cbn. lia.
      - intros H j J. destruct (H j J) as (s' & E' & M'). exists s'. split; [apply (runs_trans _ _ _ _ E E')|].
        replace A with (2 * Z.of_nat (length (@nil Z)) + A) by (cbn; lia).
        apply (effect_after xs adr links base s0 s s1 [] r r1 s' A r' Rd M M'). cbn. lia.
    Qed.
    Lemma outcome_post prog i e e2 C B A s h r' : outcome adr prog i e C B A s h r' ->
      (forall s1, moves s s1 [] r' -> exists s2, runs prog (e, s1) (e2, s2) /\ moves s s2 [] r') ->
      outcome adr prog i e2 C B A s h r'.
    Proof using. clear.
      unfold outcome. intros H K. destruct h; [|exact H|exact H].
      destruct H as (s1 & E1 & M1). destruct (K s1 M1) as (s2 & E2 & M2). exists s2. split; [apply (runs_trans _ _ _ _ E1 E2)|exact M2].
    Qed.
    Lemma outcome_pseudo prog i e e2 C B A s h r' p : outcome adr prog i e C B A s h r' -> nth_error prog e = Some p -> is_pseudo p = true ->
      e2 = S e -> outcome adr prog i e2 C B A s h r'.
    Proof using. clear.
      intros H N Ps ->. apply (outcome_post _ _ _ _ _ _ _ _ _ _ H). intros s1 M. exists s1. split; [apply (run_pseudo _ _ _ _ N Ps)|exact M].
    Qed.
  End Outcome.

  Lemma room_same s s1 r1 adr k : moves xs adr s s1 [] r1 -> room s k -> room s1 k.
  Proof. intros M R. pose proof (moves_room xs adr s s1 [] r1 k M R) as X. cbn [length] in X. replace (k - Z.of_nat 0) with k in X by lia. exact X. Qed.

  Lemma sim_empty p C B A k : is_pseudo p = true -> sim [p] k C B A (means SEmpty).
  Proof.
    intros Ps adr links base s0 Pc Ev prog i St s r h r' Rd Bs Rm (-> & ->). apply stands_cons in St. destruct St as (St & _).
    exists s. split; [cbn [length]; rewrite Nat.add_1_r; apply (run_pseudo _ _ _ _ St Ps)|apply (moves_refl xs adr links base s0 s r Rd)].
  Qed.

  Lemma main_empty : ok_stmt false [] SEmpty.
  Proof.
    intros brk cont W U Ln rest F _ Lr O E l C B A Hl Hl2 HB HC HA HA2.
    exists [mkOp oLINE 0 (tline (hd eoftok rest))], l, 1%nat. split; [cbn; lia|]. split.
    - intros [|n] Hn; [lia|]. rewrite statement_S. apply any_empty; assumption.
    - apply sim_empty. reflexivity.
  Qed.

  Lemma main_assign t a ts x e : spells_var t x -> tk a = tASSIGN -> gexpr ts e -> ok_stmt false (t :: a :: ts) (SAssign x e).
  Proof.
    intros Sx Ha G brk cont (Te & Cl) U Ln rest F _ Lr O E l C B A Hl Hl2 HB HC HA HA2.
    destruct (ok_expr ts e (vty x) (vty x) G Te) as (pe & N & Pl & Pe & Re); [intros y Hy; apply U; right; exact Hy|].
    destruct (U x (or_introl eq_refl)) as (Ux & Ua). inversion Ln as [|? ? L1 L2]; subst. 
    exists (mkOp oLINE 0 (tline t) :: pe ++ store_code lev x), l, (S N). split; [cbn [length]; lia|]. split.
    - intros [|n] Hn; [lia|]. rewrite statement_S. cbn [app]. rewrite (any_var n _ _ _ t _ _ _ _ _ _ _ _ x L1 Sx Cl).
      destruct Sx as (Sx1 & Sx2 & Sx3 & Sx4 & Sx5). unfold store_code. destruct (is32 (vty x)) eqn:L32.
      + unfold large_assignment. rewrite c_get, (c_expect _ _ a _ _ _ _ _ _ _ _ Ha), Pe by (lia || apply follows_ended, F). cbn [binde].
        rewrite emit_push, Sx4 by (rewrite Sx4; destruct (vty x); try discriminate L32; cbn; lia).
        unfold append; cbn [toks out errs g_label g_level g_continue g_break g_adjust].
        rewrite (c_ref _ _ _ _ _ _ _ _ oSTSM _ x); [|cbn; tauto|exact Sx2|exact Sx3|exact Ua].
        destruct (vty x); try discriminate L32; flat.
      + unfold assignment. rewrite c_get, (c_expect _ _ a _ _ _ _ _ _ _ _ Ha), Pe by (lia || apply follows_ended, F). cbn [binde].
        rewrite (c_ref _ _ _ _ _ _ _ _ (store_op (vty x)) _ x); [|destruct (vty x); cbn; tauto|exact Sx2|exact Sx3|exact Ua]. flat.
    - intros adr links base s0 Pc Ev prog i St s r h r' Rd Bs Rm (z & V & Sz & -> & ->).
      apply stands_cons in St. destruct St as (St0 & St). apply stands_app in St. destruct St as (St1 & St2).
      destruct (Re adr links base s0 Pc Ev prog (S i) St1 s r z Rd) as (Iz & s1 & E1 & M1).
      { apply (room_mono _ _ _ Rm). cbn [length]. lia. }
      { exact V. }
      pose proof (moves_room xs adr s s1 (words (vty x) z) r _ M1 Rm) as Rm1.
      destruct (run_storing lev xs adr links base s0 Pc Ev prog _ x s s1 [] r r z St2 Rd M1) as (s2 & E2 & M2); auto.
      { apply (room_mono _ _ _ Rm1). unfold words. cbn [length]. destruct (is32 (vty x)); cbn [length]; lia. }
      exists s2. split; [|exact M2].
      apply (runs_trans _ _ _ _ (run_pseudo _ _ s _ St0 eq_refl)). apply (runs_trans _ _ _ _ E1).
      replace (i + length (mkOp oLINE 0 (tline t) :: pe ++ store_code lev x))%nat with (S i + length pe + length (store_code lev x))%nat
        by (cbn [length]; rewrite app_length; lia). exact E2.
  Qed.


  (** A condition and the jump over what depends on it *)
  Lemma run_cond ts e prog i pe l j adr links base s0 s r z k :
    placed lev xs adr links base s0 -> c_ssz (cf s0) mod 2 = 0 ->
    evaluates pe ts xBoolean xBoolean e ->
    stands prog i (pe ++ [mkOp oJEQUZ 0 l]) -> (z = 0 -> labelled prog l j) ->
    ready xs adr links base s0 s r -> room s k -> 2 * Z.of_nat (length ts) < k -> evalue r xBoolean e = Some z ->
    exists s', runs prog (i, s) ((if z =? 0 then j else S (i + length pe)), s') /\ moves xs adr s s' [] r.
  Proof.
    intros Pc Ev Re St Lb Rd Rm Hk V. apply stands_app in St. destruct St as (St1 & St2). apply stands_cons in St2. destruct St2 as (St2 & _).
    destruct (Re adr links base s0 Pc Ev prog i St1 s r z Rd (room_mono s k (2 * Z.of_nat (length ts)) Rm ltac:(lia)) V) as (Iz & s1 & E1 & M1).
    change (words xBoolean z) with ([] ++ [z mod 65536]) in M1.
    pose proof (mod_zero xBoolean z eq_refl Iz) as Zz.
    pose proof (moves_room xs adr s s1 _ r k M1 Rm) as Rm1. cbn [length app] in Rm1.
    destruct (run_equz lev xs adr links base s0 Pc Ev prog _ j l s s1 [] (z mod 65536) r r St2) as (s2 & E2 & M2); auto.
    { intros Hz. apply Lb. lia. }
    { apply (room_mono _ _ _ Rm1). lia. }
    exists s2. split; [|exact M2]. rewrite Zz in E2. apply (runs_trans _ _ _ _ E1 E2).
  Qed.

  Lemma main_if a ts e b us st o : tk a = tIF -> gexpr ts e -> tk b = tTHEN -> ok_stmt o us st ->
    ok_stmt true (a :: ts ++ b :: us) (SIf e st).
  Proof.
    intros Ha G Hb IH brk cont (Te & W) U Ln rest F Fe Lr O E l C B A Hl Hl2 HB HC HA HA2.
    destruct (ok_expr ts e xBoolean xBoolean G Te) as (pe & N & Pl & Pe & Re); [intros y Hy; apply U, in_or_app; auto|].
    inversion Ln as [|? ? La Ln1]; subst. apply Forall_app in Ln1. destruct Ln1 as (_ & Ln1). inversion Ln1 as [|? ? Lb Ln2]; subst.
    cbn [length] in Hl2, HA2. rewrite app_length in Hl2, HA2. cbn [length] in Hl2, HA2.
    destruct (IH brk cont W) with (rest := rest) (E := E) (l := l + 1) (C := C) (B := B) (A := A)
      (O := ((O ++ [mkOp oLINE 0 (tline a)]) ++ pe) ++ [mkOp oJEQUZ 0 (l + 1)])
      as (p1 & l1 & N1 & Hl1 & C1 & S1); auto; try lia.
    { intros y Hy. apply U, in_or_app. auto. }
    exists (mkOp oLINE 0 (tline a) :: pe ++ mkOp oJEQUZ 0 (l + 1) :: p1 ++ [mkOp oLABEL 0 (l + 1)]), l1, (S (N + N1)). split; [|split].
    - cbn [length]. rewrite app_length. cbn [length]. lia.
    - intros [|n] Hn; [lia|]. rewrite statement_S. cbn [app]. rewrite <- app_assoc. cbn [app]. rewrite any_if by assumption.
      unfold if_statement. rewrite c_counted, c_new, c_get by lia.
      rewrite Pe by (try lia; apply (tok_ended _ _ tTHEN Hb); cbn; tauto). cbn [binde]. rewrite c_token. cbn [hd]. rewrite Hb, Z.eqb_refl. cbn [negb].
      rewrite c_get, c_jump by (cbn; try tauto; lia). rewrite C1 by lia. cbn [binds]. rewrite c_token.
      replace (tk (hd eoftok rest) =? tELSE) with false by (specialize (Fe eq_refl); lia).
      rewrite c_label by lia. flat.
    - intros adr links base s0 Pc Ev prog i St s r h r' Rd Bs Rm (z & V & M).
      apply stands_cons in St. destruct St as (St0 & St).
      replace (pe ++ mkOp oJEQUZ 0 (l + 1) :: p1 ++ [mkOp oLABEL 0 (l + 1)]) with ((pe ++ [mkOp oJEQUZ 0 (l + 1)]) ++ p1 ++ [mkOp oLABEL 0 (l + 1)]) in St by flat.
      apply stands_app in St. destruct St as (St1 & St). apply stands_app in St. destruct St as (St2 & St).
      apply stands_cons in St. destruct St as (St3 & _).
      rewrite app_length in St2, St3. cbn [length] in St2, St3.
      destruct (run_cond ts e prog (S i) pe (l + 1) _ adr links base s0 s r z _ Pc Ev Re St1 (fun _ => St3) Rd Rm) as (s1 & E1 & M1); [|exact V|].
      { cbn [length]. rewrite app_length. cbn [length]. lia. }
      pose proof (runs_trans _ _ _ _ (run_pseudo _ _ s _ St0 eq_refl) E1) as E2.
      apply (outcome_pre adr links base s0 Pc prog i _ _ C B A s s1 r r h r' Rd E2 M1 HA).
      eapply outcome_pseudo with (e := (S i + (length pe + 1) + length p1)%nat); [|exact St3|reflexivity|len].
      destruct (z =? 0) eqn:Z0.
      + destruct M as (-> & ->). exists s1. split; [constructor|]. apply (moves_refl xs adr links base s0).
        apply (moves_ready lev xs adr links base s0 Pc s s1 [] r r Rd M1).
      + replace (S (S i + length pe)) with (S i + (length pe + 1))%nat by lia.
        apply (S1 adr links base s0 Pc Ev prog _ St2 s1 r h r').
        * apply (moves_ready lev xs adr links base s0 Pc s s1 [] r r Rd M1).
        * destruct M1 as (_ & Q & _). cbn [length] in Q. replace (sp s1) with (sp s) by lia. exact Bs.
        * apply (room_same s s1 r adr _ M1). apply (room_mono _ _ _ Rm). cbn [length]. rewrite app_length. cbn [length]. lia.
        * exact M.
  Qed.

  Lemma main_ifelse a ts e b us st1 d vs st2 o : tk a = tIF -> gexpr ts e -> tk b = tTHEN -> ok_stmt false us st1 ->
    tk d = tELSE -> ok_stmt o vs st2 -> ok_stmt o (a :: ts ++ b :: us ++ d :: vs) (SIfElse e st1 st2).
  Proof.
    intros Ha G Hb IH1 Hd IH2 brk cont (Te & W1 & W2) U Ln rest F Fe Lr O E l C B A Hl Hl2 HB HC HA HA2.
    destruct (ok_expr ts e xBoolean xBoolean G Te) as (pe & N & Pl & Pe & Re); [intros y Hy; apply U, in_or_app; auto|].
    inversion Ln as [|? ? La Ln1]; subst. apply Forall_app in Ln1. destruct Ln1 as (_ & Ln1). inversion Ln1 as [|? ? Lb Ln2]; subst.
    apply Forall_app in Ln2. destruct Ln2 as (Ln2 & Ln3). inversion Ln3 as [|? ? Ld Ln4]; subst.
    cbn [length] in Hl2, HA2. rewrite app_length in Hl2, HA2. cbn [length] in Hl2, HA2. rewrite app_length in Hl2, HA2. cbn [length] in Hl2, HA2.
    destruct (IH1 brk cont W1) with (rest := d :: vs ++ rest) (E := E) (l := l + 1) (C := C) (B := B) (A := A)
      (O := ((O ++ [mkOp oLINE 0 (tline a)]) ++ pe) ++ [mkOp oJEQUZ 0 (l + 1)])
      as (p1 & l1 & N1 & Hl1 & C1 & S1); auto; try lia; try discriminate.
    { intros y Hy. apply U, in_or_app. right. apply in_or_app. auto. }
    { unfold follows. cbn [hd]. rewrite Hd. cbn. tauto. }
    destruct (IH2 brk cont W2) with (rest := rest) (E := E) (l := l1 + 1) (C := C) (B := B) (A := A)
      (O := ((((((O ++ [mkOp oLINE 0 (tline a)]) ++ pe) ++ [mkOp oJEQUZ 0 (l + 1)]) ++ p1) ++ [mkOp oJMP 0 (l1 + 1)]) ++ [mkOp oLABEL 0 (l + 1)]))
      as (p2 & l2 & N2 & Hl3 & C2 & S2); auto; try lia.
    { intros y Hy. apply U, in_or_app. right. apply in_or_app. auto. }
    exists (mkOp oLINE 0 (tline a) :: pe ++ mkOp oJEQUZ 0 (l + 1) :: p1 ++ mkOp oJMP 0 (l1 + 1) :: mkOp oLABEL 0 (l + 1) :: p2 ++ [mkOp oLABEL 0 (l1 + 1)]), l2, (S (N + N1 + N2)). split; [|split].
    - len.
    - intros [|n] Hn; [lia|]. rewrite statement_S. cbn [app]. rewrite <- app_assoc. cbn [app]. rewrite <- app_assoc. cbn [app]. rewrite any_if by assumption.
      unfold if_statement. rewrite c_counted, c_new, c_get by lia.
      rewrite Pe by (try lia; apply (tok_ended _ _ tTHEN Hb); cbn; tauto). cbn [binde]. rewrite c_token. cbn [hd]. rewrite Hb, Z.eqb_refl. cbn [negb].
      rewrite c_get, c_jump by (cbn; try tauto; lia). rewrite C1 by lia. cbn [binds]. rewrite c_token. cbn [hd]. rewrite Hd, Z.eqb_refl.
      rewrite c_counted, c_new, c_get, c_jump, c_label by (cbn; try tauto; lia). rewrite C2 by lia. cbn [binds]. rewrite c_label by lia. flat.
    - intros adr links base s0 Pc Ev prog i St s r h r' Rd Bs Rm (z & V & M).
      apply stands_cons in St. destruct St as (St0 & St).
      replace (pe ++ mkOp oJEQUZ 0 (l + 1) :: p1 ++ mkOp oJMP 0 (l1 + 1) :: mkOp oLABEL 0 (l + 1) :: p2 ++ [mkOp oLABEL 0 (l1 + 1)])
        with ((pe ++ [mkOp oJEQUZ 0 (l + 1)]) ++ p1 ++ mkOp oJMP 0 (l1 + 1) :: mkOp oLABEL 0 (l + 1) :: p2 ++ [mkOp oLABEL 0 (l1 + 1)]) in St by flat.
      apply stands_app in St. destruct St as (St1 & St). apply stands_app in St. destruct St as (St2 & St).
      apply stands_cons in St. destruct St as (St3 & St). apply stands_cons in St. destruct St as (St4 & St).
      apply stands_app in St. destruct St as (St5 & St). apply stands_cons in St. destruct St as (St6 & _).
      rewrite app_length in *. cbn [length] in St2, St3, St4, St5, St6.
      assert (Need : 2 * Z.of_nat (length (a :: ts ++ b :: us ++ d :: vs)) = 2 * (Z.of_nat (length ts) + Z.of_nat (length us) + Z.of_nat (length vs) + 3)).
      { cbn [length]. rewrite app_length. cbn [length]. rewrite app_length. cbn [length]. lia. }
      rewrite Need in Rm. clear Need.
      destruct (run_cond ts e prog (S i) pe (l + 1) _ adr links base s0 s r z _ Pc Ev Re St1 (fun _ => St4) Rd Rm) as (s1 & E1 & M1); [lia|exact V|].
      pose proof (runs_trans _ _ _ _ (run_pseudo _ _ s _ St0 eq_refl) E1) as E2.
      pose proof (moves_ready lev xs adr links base s0 Pc s s1 [] r r Rd M1) as Rd1.
      apply (outcome_pre adr links base s0 Pc prog i _ _ C B A s s1 r r h r' Rd E2 M1 HA).
      eapply outcome_pseudo with (e := (S (S (S i + (length pe + 1) + length p1)) + length p2)%nat); [|exact St6|reflexivity|len].
      assert (Bs1 : base <= (sp s1 + A) / 2) by (destruct M1 as (_ & Q & _); cbn [length] in Q; replace (sp s1) with (sp s) by lia; exact Bs).
      pose proof (room_same s s1 r adr _ M1 Rm) as Rm1.
      destruct (z =? 0) eqn:Z0.
      + pose proof (run_pseudo _ _ s1 _ St4 eq_refl) as E3.
        apply (outcome_pre adr links base s0 Pc prog _ _ _ C B A s1 s1 r r h r' Rd1 E3 (moves_refl xs adr links base s0 s1 r Rd1) HA).
        apply (S2 adr links base s0 Pc Ev prog _ St5 s1 r h r' Rd1 Bs1); [|exact M]. apply (room_mono _ _ _ Rm1). lia.
      + replace (S (S i + length pe)) with (S i + (length pe + 1))%nat by lia.
        assert (Q : outcome adr prog (S i + (length pe + 1)) (S i + (length pe + 1) + length p1) C B A s1 h r').
        { apply (S1 adr links base s0 Pc Ev prog _ St2 s1 r h r' Rd1 Bs1); [|exact M]. apply (room_mono _ _ _ Rm1). lia. }
        apply (outcome_post _ _ _ _ _ _ _ _ _ _ _ Q). intros s2 M2.
        apply (run_jmp lev xs adr links base s0 Pc Ev prog _ _ _ s1 s2 [] r r' St3 St6 Rd1 M2).
  Qed.

  Lemma main_block a us ss b : tk a = tBEGIN -> ok_stmts us ss -> tk b = tEND -> ok_stmt false (a :: us ++ [b]) (SBlock ss).
  Proof.
    intros Ha IH Hb brk cont W U Ln rest F Fe Lr O E l C B A Hl Hl2 HB HC HA HA2.
    inversion Ln as [|? ? La Ln1]; subst. apply Forall_app in Ln1. destruct Ln1 as (Ln1 & Ln2). inversion Ln2 as [|? ? Lb _]; subst.
    cbn [length] in Hl2, HA2. rewrite app_length in Hl2, HA2. cbn [length] in Hl2, HA2.
    destruct (IH brk cont W) with (rest := b :: rest) (a := a) (E := E) (l := l) (C := C) (B := B) (A := A) (O := (O ++ [mkOp oLINE 0 (tline a)]))
      as (p1 & l1 & N1 & Hl1 & C1 & S1); auto; try lia.
    { cbn [hd]. rewrite Hb. cbn. tauto. }
    exists (mkOp oLINE 0 (tline a) :: p1), l1, (S N1). split; [|split].
    - len.
    - intros [|n] Hn; [lia|]. rewrite statement_S. cbn [app]. rewrite <- app_assoc. cbn [app]. rewrite any_begin by assumption.
      rewrite C1 by lia. cbn [binds]. rewrite c_expect by exact Hb. flat.
    - intros adr links base s0 Pc Ev prog i St s r h r' Rd Bs Rm M.
      apply stands_cons in St. destruct St as (St0 & St).
      apply (outcome_pre adr links base s0 Pc prog i (S i) _ C B A s s r r h r' Rd (run_pseudo _ _ s _ St0 eq_refl) (moves_refl xs adr links base s0 s r Rd) HA).
      replace (i + length (mkOp oLINE 0 (tline a) :: p1))%nat with (S i + length p1)%nat by (cbn [length]; lia).
      apply (S1 adr links base s0 Pc Ev prog (S i) St s r h r' Rd Bs); [|exact M]. apply (room_mono _ _ _ Rm). len.
  Qed.

  Lemma c_leave label T O E l C B A : 0 < label <= 65535 -> -32768 <= A <= 0 ->
    continue_break label (mkComp T O E l lev C B A) = mkComp T (O ++ adjust_code A ++ [mkOp oJMP 0 label]) E l lev C B A.
  Proof.
    intros H HA. unfold continue_break, adjust_code. replace (label =? 0) with false by lia. cbn [g_adjust]. destruct (A =? 0).
    - rewrite c_jump by (cbn; try tauto; lia). reflexivity.
    - rewrite c_inds by lia. rewrite c_jump by (cbn; try tauto; lia). flat.
  Qed.

  Lemma sim_leave (h0 : how) p label A B C : is_pseudo p = true -> -32768 <= A <= 0 ->
    match h0 with Normal => False | Broke => label = B | Continued => label = C end ->
    sim (p :: adjust_code A ++ [mkOp oJMP 0 label]) 0 C B A (fun r h r' => h = h0 /\ r' = r).
  Proof.
    intros Ps HA Hl adr links base s0 Pc Ev prog i St s r h r' Rd Bs Rm (-> & ->). apply stands_cons in St. destruct St as (St0 & St).
    pose proof (run_pseudo _ _ s _ St0 Ps) as E0.
    destruct h0; [destruct Hl| |]; subst label; intros j J;
      (edestruct (run_leave lev xs adr links base s0 Pc Ev prog) as (s' & E1 & X1); [exact St|exact J|exact Rd|exact Rm|exact HA|exact Bs|]);
      exists s'; (split; [apply (runs_trans _ _ _ _ E0 E1)|exact X1]).
  Qed.
  Lemma sim_weaken ps k k' C B A M : sim ps k C B A M -> k <= k' -> sim ps k' C B A M.
  Proof.
    intros H L adr links base s0 Pc Ev prog i St s r h r' Rd Bs Rm M'.
    apply (H adr links base s0 Pc Ev prog i St s r h r' Rd Bs); [|exact M']. apply (room_mono _ _ _ Rm). lia.
  Qed.

  Lemma main_break t : tk t = tSTDPROC -> tsub t = txBREAK -> ok_stmt false [t] SBreak.
  Proof.
    intros Ht Hs brk cont W U Ln rest F Fe Lr O E l C B A Hl Hl2 HB HC HA HA2. cbn [wf_stmt] in W. specialize (HB W).
    inversion Ln as [|? ? La _]; subst. cbn [length] in HA2.
    exists (mkOp oLINE 0 (tline t) :: adjust_code A ++ [mkOp oJMP 0 B]), l, 1%nat. split; [|split].
    - len.
    - intros [|n] Hn; [lia|]. rewrite statement_S. cbn [app]. rewrite any_std by assumption. unfold standard_procedure. rewrite c_token. unfold cur. cbn [hd toks].
      rewrite Ht, Z.eqb_refl, Hs, Z.eqb_refl, c_get. cbn [g_break]. rewrite c_leave by lia. flat.
    - apply (sim_weaken _ 0); [|len]. apply (sim_leave Broke); [reflexivity|lia|reflexivity].
  Qed.
  Lemma main_continue t : tk t = tSTDPROC -> tsub t = txCONTINUE -> ok_stmt false [t] SContinue.
  Proof.
    intros Ht Hs brk cont W U Ln rest F Fe Lr O E l C B A Hl Hl2 HB HC HA HA2. cbn [wf_stmt] in W. specialize (HC W).
    inversion Ln as [|? ? La _]; subst. cbn [length] in HA2.
    exists (mkOp oLINE 0 (tline t) :: adjust_code A ++ [mkOp oJMP 0 C]), l, 1%nat. split; [|split].
    - len.
    - intros [|n] Hn; [lia|]. rewrite statement_S. cbn [app]. rewrite any_std by assumption. unfold standard_procedure. rewrite c_token. unfold cur. cbn [hd toks].
      rewrite Ht, Z.eqb_refl, Hs. change (txCONTINUE =? txBREAK) with false. rewrite Z.eqb_refl, c_get. cbn [g_continue]. rewrite c_leave by lia. flat.
    - apply (sim_weaken _ 0); [|len]. apply (sim_leave Continued); [reflexivity|lia|reflexivity].
  Qed.

  Lemma ends_follow rest : In (tk (hd eoftok rest)) [tEND; tUNTIL] -> follows rest /\ tk (hd eoftok rest) <> tELSE /\ (tk (hd eoftok rest) =? tSEMICOLON) = false.
  Proof. unfold follows. cbn [In]. intros [<-|[<-|[]]]; (split; [|split]); try discriminate; try reflexivity; tauto. Qed.

  Lemma main_one o ts st : ok_stmt o ts st -> ok_stmts ts (SOne st).
  Proof.
    intros IH brk cont W U Ln rest F Lr a O E l C B A Hl Hl2 HB HC HA HA2.
    destruct (ends_follow rest F) as (F1 & F2 & F3).
    destruct (IH brk cont W) with (rest := rest) (E := E) (l := l) (C := C) (B := B) (A := A) (O := O)
      as (p1 & l1 & N1 & Hl1 & C1 & S1); auto; try lia.
    exists p1, l1, (S N1). split; [exact Hl1|]. split; [|exact S1].
    intros [|n] Hn; [lia|]. rewrite statements_S, c_get, C1 by lia. cbn [binds]. rewrite c_token, F3. reflexivity.
  Qed.

  Lemma main_more o ts st a us ss : ok_stmt o ts st -> tk a = tSEMICOLON -> ok_stmts us ss -> ok_stmts (ts ++ a :: us) (SMore st ss).
  Proof.
    intros IH1 Ha IH2 brk cont (W1 & W2) U Ln rest F Lr a' O E l C B A Hl Hl2 HB HC HA HA2.
    apply Forall_app in Ln. destruct Ln as (Ln1 & Ln2). inversion Ln2 as [|? ? La Ln3]; subst.
    rewrite app_length in Hl2, HA2. cbn [length] in Hl2, HA2.
    destruct (IH1 brk cont W1) with (rest := a :: us ++ rest) (E := E) (l := l) (C := C) (B := B) (A := A) (O := O)
      as (p1 & l1 & N1 & Hl1 & C1 & S1); auto; try lia.
    { intros y Hy. apply U, in_or_app. auto. }
    { unfold follows. cbn [hd]. rewrite Ha. cbn. tauto. }
    { cbn [hd]. rewrite Ha. discriminate. }
    destruct (IH2 brk cont W2) with (rest := rest) (a := a) (E := E) (l := l1) (C := C) (B := B) (A := A) (O := O ++ p1)
      as (p2 & l2 & N2 & Hl3 & C2 & S2); auto; try lia.
    { intros y Hy. apply U, in_or_app. auto. }
    exists (p1 ++ p2), l2, (S (N1 + N2)). split; [|split].
    - len.
    - intros [|n] Hn; [lia|]. rewrite statements_S, c_get, <- app_assoc. cbn [app]. rewrite C1 by lia. cbn [binds]. rewrite c_token. cbn [hd]. rewrite Ha, Z.eqb_refl.
      rewrite C2 by lia. flat.
    - intros adr links base s0 Pc Ev prog i St s r h r' Rd Bs Rm (h1 & r1 & M1 & M2).
      apply stands_app in St. destruct St as (St1 & St2).
      assert (Rm' : room s (2 * Z.of_nat (length ts) + 2 * Z.of_nat (length us))) by (apply (room_mono _ _ _ Rm); len).
      assert (Q : outcome adr prog i (i + length p1) C B A s h1 r1).
      { apply (S1 adr links base s0 Pc Ev prog i St1 s r h1 r1 Rd Bs); [|exact M1]. apply (room_mono _ _ _ Rm'). lia. }
      destruct h1.
      + destruct Q as (s1 & E1 & X1).
        apply (outcome_pre adr links base s0 Pc prog i _ _ C B A s s1 r r1 h r' Rd E1 X1 HA).
        rewrite app_length, Nat.add_assoc. apply (S2 adr links base s0 Pc Ev prog _ St2 s1 r1 h r').
        * apply (moves_ready lev xs adr links base s0 Pc s s1 [] r r1 Rd X1).
        * destruct X1 as (_ & Q & _). cbn [length] in Q. replace (sp s1) with (sp s) by lia. exact Bs.
        * apply (room_same s s1 r1 adr _ X1). apply (room_mono _ _ _ Rm'). lia.
        * exact M2.
      + destruct M2 as (-> & ->). exact Q.
      + destruct M2 as (-> & ->). exact Q.
  Qed.
End Sim.
