(** The loops of the statement compiler. *)

From Coq Require Import ZArith Bool List Lia ZifyBool.
From Verif Require Import Words WordLemmas State StateLemmas Opcodes EncodeModel SetModel LongModel Machine VmSpec VmProofs MemProofs MultiProofs
  OptSpec OptUnaryStep ExprModel ExprSpec ExprRun ExprOps ExprLoad ExprProofs ExprMain StmtModel StmtSpec StmtPlain StmtRun StmtStore StmtStep StmtMain.
Import ListNotations.
Open Scope Z_scope.

Section Loops.
  Variables (lev : Z) (xs : list var).
  Notation ok_stmt := (ok_stmt lev xs).
  Notation ok_stmts := (ok_stmts lev xs).
  Notation sim := (sim lev xs).
  Notation evaluates := (evaluates lev xs).

  Lemma sim_while line pe p1 lw le ts e k1 k M :
    evaluates pe ts xBoolean xBoolean e -> sim p1 k1 lw le 0 M -> k1 <= k -> 2 * Z.of_nat (length ts) < k ->
    forall C B A, sim (mkOp oLINE 0 line :: mkOp oLABEL 0 lw :: pe ++ mkOp oJEQUZ 0 le :: p1 ++ [mkOp oJMP 0 lw; mkOp oLABEL 0 le]) k C B A
      (fun r h r' => h = Normal /\ while_loop (fun r => evalue r xBoolean e) M r r').
  Proof.
    intros Re S1 K1 K2 C B A adr links base s0 Pc Ev prog i St s r h r' Rd Bs Rm (-> & Lp).
    apply stands_cons in St. destruct St as (St0 & St). apply stands_cons in St. destruct St as (StW & St).
    replace (pe ++ mkOp oJEQUZ 0 le :: p1 ++ [mkOp oJMP 0 lw; mkOp oLABEL 0 le])
      with ((pe ++ [mkOp oJEQUZ 0 le]) ++ p1 ++ [mkOp oJMP 0 lw; mkOp oLABEL 0 le]) in St by flat.
    apply stands_app in St. destruct St as (St1 & St). apply stands_app in St. destruct St as (St2 & St).
    apply stands_cons in St. destruct St as (St3 & St). apply stands_cons in St. destruct St as (StE & _).
    rewrite app_length in *. cbn [length] in *.
    set (iw := S i) in *. set (ie := S (S iw + (length pe + 1) + length p1)) in *.
    assert (Loop : forall r r', while_loop (fun r => evalue r xBoolean e) M r r' ->
      forall s, ready xs adr links base s0 s r -> room s k -> exists s', runs prog (iw, s) (ie, s') /\ moves xs adr s s' [] r').
    { clear s r r' Rd Bs Rm Lp.
      assert (Cond : forall r z s, evalue r xBoolean e = Some z -> ready xs adr links base s0 s r -> room s k ->
        exists s', runs prog (iw, s) ((if (z =? 0)%Z then ie else (S iw + (length pe + 1)))%nat, s') /\ moves xs adr s s' [] r).
      { intros r z s V Rd Rm.
        destruct (run_cond lev xs ts e prog (S iw) pe le ie adr links base s0 s r z k Pc Ev Re St1 (fun _ => StE) Rd Rm K2 V) as (s1 & E1 & M1).
        exists s1. split; [|exact M1]. replace (S iw + (length pe + 1))%nat with (S (S iw + length pe)) by lia.
        apply (runs_trans _ _ _ _ (run_pseudo _ _ s _ StW eq_refl) E1). }
      assert (Body : forall r z s h r1, evalue r xBoolean e = Some z -> z <> 0 -> M r h r1 -> ready xs adr links base s0 s r -> room s k ->
        exists s', runs prog (iw, s) (match h with Broke => ie | _ => iw end, s') /\ moves xs adr s s' [] r1).
      { intros r z s h r1 V Nz Mb Rd Rm. destruct (Cond r z s V Rd Rm) as (s1 & E1 & M1). replace (z =? 0) with false in E1 by lia.
        pose proof (moves_ready lev xs adr links base s0 Pc s s1 [] r r Rd M1) as Rd1.
        assert (Q : outcome xs adr prog (S iw + (length pe + 1)) (S iw + (length pe + 1) + length p1) lw le 0 s1 h r1).
        { apply (S1 adr links base s0 Pc Ev prog _ St2 s1 r h r1 Rd1); [|exact (room_mono _ _ _ (room_same xs s s1 r adr _ M1 Rm) K1)|exact Mb].
          rewrite Z.add_0_r. apply Rd1. }
        assert (Q2 : exists s2, runs prog (S iw + (length pe + 1), s1)%nat (match h with Broke => ie | _ => iw end, s2) /\ moves xs adr s1 s2 [] r1).
        { destruct h; cbn [outcome] in Q.
          - destruct Q as (s2 & E2 & M2). destruct (run_jmp lev xs adr links base s0 Pc Ev prog _ iw lw s1 s2 [] r r1 St3 StW Rd1 M2) as (s3 & E3 & M3).
            exists s3. split; [apply (runs_trans _ _ _ _ E2 E3)|exact M3].
          - destruct (Q ie StE) as (s2 & E2 & X2). exists s2. split; [exact E2|apply effect_0, X2].
          - destruct (Q iw StW) as (s2 & E2 & X2). exists s2. split; [exact E2|apply effect_0, X2]. }
        destruct Q2 as (s2 & E2 & M2). exists s2. split; [apply (runs_trans _ _ _ _ E1 E2)|].
        apply (moves_again lev xs adr links base s0 Pc s s1 [] r r r1 s2 Rd M1 M2). }
      induction 1 as [r V|r z h r1 r2 V Nz Mb Nb Lp IH|r z r1 V Nz Mb]; intros s Rd Rm.
      - destruct (Cond r 0 s V Rd Rm) as (s1 & E1 & M1). exists s1. auto.
      - destruct (Body r z s h r1 V Nz Mb Rd Rm) as (s1 & E1 & M1).
        destruct (IH s1 (moves_ready lev xs adr links base s0 Pc s s1 [] r r1 Rd M1) (room_same xs s s1 r1 adr _ M1 Rm)) as (s2 & E2 & M2).
        exists s2. split; [|apply (moves_again lev xs adr links base s0 Pc s s1 [] r r1 r2 s2 Rd M1 M2)].
        destruct h; [|contradiction|]; apply (runs_trans _ _ _ _ E1 E2).
      - apply (Body r z s Broke r1 V Nz Mb Rd Rm). }
    destruct (Loop r r' Lp s Rd Rm) as (s1 & E1 & M1). exists s1. split; [|exact M1].
    apply (runs_trans _ _ _ _ (run_pseudo _ _ s _ St0 eq_refl)). fold iw. apply (runs_trans _ _ _ _ E1).
    replace (i + _)%nat with (S ie); [apply (run_pseudo _ _ s1 _ StE eq_refl)|]. unfold ie, iw. rewrite ?app_length. cbn [length]. rewrite ?app_length. cbn [length]. lia.
  Qed.

  Lemma main_while a ts e b us st o : tk a = tWHILE -> gexpr ts e -> tk b = tDO -> ok_stmt o us st ->
    ok_stmt o (a :: ts ++ b :: us) (SWhile e st).
  Proof.
    intros Ha G Hb IH brk cont (Te & W) U Ln rest F Fe Lr O E l C B A Hl Hl2 HB HC HA HA2.
    destruct (ok_expr lev xs ts e xBoolean xBoolean G Te) as (pe & N & Pl & Pe & Re); [intros y Hy; apply U, in_or_app; auto|].
    inversion Ln as [|? ? La Ln1]; subst. apply Forall_app in Ln1. destruct Ln1 as (_ & Ln1). inversion Ln1 as [|? ? Lb Ln2]; subst.
    cbn [length] in Hl2, HA2. rewrite app_length in Hl2, HA2. cbn [length] in Hl2, HA2.
    destruct (IH true true W) with (rest := rest) (E := E) (l := l + 1 + 1) (C := l + 1) (B := l + 1 + 1) (A := 0)
      (O := (((O ++ [mkOp oLINE 0 (tline a)]) ++ [mkOp oLABEL 0 (l + 1)]) ++ pe) ++ [mkOp oJEQUZ 0 (l + 1 + 1)])
      as (p1 & l1 & N1 & Hl1 & C1 & S1); auto; try lia.
    { intros y Hy. apply U, in_or_app. auto. }
    exists (mkOp oLINE 0 (tline a) :: mkOp oLABEL 0 (l + 1) :: pe ++ mkOp oJEQUZ 0 (l + 1 + 1) :: p1 ++ [mkOp oJMP 0 (l + 1); mkOp oLABEL 0 (l + 1 + 1)]), l1, (S (N + N1)). split; [|split].
    - len.
    - intros [|n] Hn; [lia|]. rewrite statement_S. cbn [app]. rewrite <- app_assoc. cbn [app]. rewrite any_while by assumption.
      unfold while_statement. rewrite c_counted, c_new by lia. rewrite c_counted, c_new by lia. cbn [g_continue g_break g_adjust].
      rewrite c_loop, c_get, c_label by lia.
      rewrite Pe by (try lia; apply (tok_ended _ _ tDO Hb); cbn; tauto). cbn [binde].
      rewrite c_jump, (c_expect tDO) by (try exact Hb; cbn; try tauto; lia). rewrite C1 by lia. cbn [binds].
      rewrite c_jump, c_label, c_loop by (cbn; try tauto; lia). flat.
    - apply (sim_while (tline a) pe p1 (l + 1) (l + 1 + 1) ts e _ _ (means st) Re S1); len.
  Qed.

  Lemma sim_repeat line p1 pe lr le ts e k1 k M :
    evaluates pe ts xBoolean xBoolean e -> sim p1 k1 lr le 0 M -> (forall r r', ~ M r Continued r') -> k1 <= k -> 2 * Z.of_nat (length ts) < k ->
    forall C B A, sim (mkOp oLINE 0 line :: mkOp oLABEL 0 lr :: p1 ++ pe ++ [mkOp oJEQUZ 0 lr; mkOp oLABEL 0 le]) k C B A
      (fun r h r' => h = Normal /\ repeat_loop (fun r => evalue r xBoolean e) M r r').
  Proof.
    intros Re S1 NC K1 K2 C B A adr links base s0 Pc Ev prog i St s r h r' Rd Bs Rm (-> & Lp).
    apply stands_cons in St. destruct St as (St0 & St). apply stands_cons in St. destruct St as (StW & St).
    apply stands_app in St. destruct St as (St1 & St).
    replace (pe ++ [mkOp oJEQUZ 0 lr; mkOp oLABEL 0 le]) with ((pe ++ [mkOp oJEQUZ 0 lr]) ++ [mkOp oLABEL 0 le]) in St by flat.
    apply stands_app in St. destruct St as (St2 & St). apply stands_cons in St. destruct St as (StE & _).
    rewrite app_length in *. cbn [length] in *.
    set (iw := S i) in *. set (ie := (S iw + length p1 + (length pe + 1))%nat) in *.
    assert (Loop : forall r r', repeat_loop (fun r => evalue r xBoolean e) M r r' ->
      forall s, ready xs adr links base s0 s r -> room s k -> exists s', runs prog (iw, s) (ie, s') /\ moves xs adr s s' [] r').
    { clear s r r' Rd Bs Rm Lp.
      assert (Out : forall r s h r1, M r h r1 -> ready xs adr links base s0 s r -> room s k ->
        exists s', runs prog (iw, s) (match h with Broke => ie | _ => S iw + length p1 end, s')%nat /\ moves xs adr s s' [] r1).
      { intros r s h r1 Mb Rd Rm.
        assert (Q : outcome xs adr prog (S iw) (S iw + length p1) lr le 0 s h r1).
        { apply (S1 adr links base s0 Pc Ev prog _ St1 s r h r1 Rd); [|exact (room_mono _ _ _ Rm K1)|exact Mb].
          rewrite Z.add_0_r. apply Rd. }
        pose proof (run_pseudo _ _ s _ StW eq_refl) as E0.
        destruct h; cbn [outcome] in Q.
        - destruct Q as (s2 & E2 & M2). exists s2. split; [apply (runs_trans _ _ _ _ E0 E2)|exact M2].
        - destruct (Q ie StE) as (s2 & E2 & X2). exists s2. split; [apply (runs_trans _ _ _ _ E0 E2)|apply effect_0, X2].
        - elim (NC _ _ Mb). }
      assert (Body : forall r s h r1 z, M r h r1 -> h <> Broke -> evalue r1 xBoolean e = Some z -> ready xs adr links base s0 s r -> room s k ->
        exists s', runs prog (iw, s) ((if (z =? 0)%Z then iw else ie), s') /\ moves xs adr s s' [] r1).
      { intros r s h r1 z Mb Nb V Rd Rm. destruct (Out r s h r1 Mb Rd Rm) as (s1 & E1 & M1).
        pose proof (moves_ready lev xs adr links base s0 Pc s s1 [] r r1 Rd M1) as Rd1.
        pose proof (room_same xs s s1 r1 adr _ M1 Rm) as Rm1.
        destruct (run_cond lev xs ts e prog (S iw + length p1) pe lr iw adr links base s0 s1 r1 z k Pc Ev Re St2 (fun _ => StW) Rd1 Rm1 K2 V) as (s2 & E2 & M2).
        exists s2. split; [|apply (moves_again lev xs adr links base s0 Pc s s1 [] r r1 r1 s2 Rd M1 M2)].
        replace ie with (S (S iw + length p1 + length pe)) by (unfold ie; lia).
        destruct h; [|contradiction|]; apply (runs_trans _ _ _ _ E1 E2). }
      induction 1 as [r h r1 z Mb Nb V Nz|r h r1 r2 Mb Nb V Lp IH|r r1 Mb]; intros s Rd Rm.
      - destruct (Body r s h r1 z Mb Nb V Rd Rm) as (s1 & E1 & M1). replace (z =? 0) with false in E1 by lia. exists s1. auto.
      - destruct (Body r s h r1 0 Mb Nb V Rd Rm) as (s1 & E1 & M1). change (0 =? 0) with true in E1. cbv iota in E1.
        destruct (IH s1 (moves_ready lev xs adr links base s0 Pc s s1 [] r r1 Rd M1) (room_same xs s s1 r1 adr _ M1 Rm)) as (s2 & E2 & M2).
        exists s2. split; [|apply (moves_again lev xs adr links base s0 Pc s s1 [] r r1 r2 s2 Rd M1 M2)].
        apply (runs_trans _ _ _ _ E1 E2).
      - apply (Out r s Broke r1 Mb Rd Rm). }
    destruct (Loop r r' Lp s Rd Rm) as (s1 & E1 & M1). exists s1. split; [|exact M1].
    apply (runs_trans _ _ _ _ (run_pseudo _ _ s _ St0 eq_refl)). fold iw. apply (runs_trans _ _ _ _ E1).
    replace (i + _)%nat with (S ie); [apply (run_pseudo _ _ s1 _ StE eq_refl)|]. unfold ie, iw. rewrite ?app_length. cbn [length]. rewrite ?app_length. cbn [length]. lia.
  Qed.

  (** Statements that may not contain Continue do not end by it *)
  Lemma no_continue :
    (forall st brk r r', wf_stmt brk false st -> ~ means st r Continued r') /\
    (forall ss brk r r', wf_stmts brk false ss -> ~ means_seq ss r Continued r') /\
    (forall cs brk T z r r', wf_cases brk false T cs -> ~ means_cases cs z r Continued r').
  Proof.
    apply stmt_syntax_ind.
    - intros brk r r' _ (H & _). discriminate.
    - intros x e brk r r' _ (z & _ & _ & H & _). discriminate.
    - intros e s IH brk r r' (_ & W) (z & _ & H). destruct (z =? 0); [destruct H; discriminate|]. exact (IH brk r r' W H).
    - intros e s1 IH1 s2 IH2 brk r r' (_ & W1 & W2) (z & _ & H). destruct (z =? 0); [exact (IH2 brk r r' W2 H)|exact (IH1 brk r r' W1 H)].
    - intros e s IH brk r r' _ (H & _). discriminate.
    - intros ss IH e brk r r' _ (H & _). discriminate.
    - intros x d e1 e2 s IH brk r r' _ (H & _). discriminate.
    - intros e cs IH brk r r' (T & _ & _ & W) (z & _ & H). exact (IH brk T z r r' W H).
    - intros ss IH brk r r' W H. exact (IH brk r r' W H).
    - intros brk r r' _ (H & _). discriminate.
    - intros brk r r' H _. discriminate.
    - intros s IH brk r r' W H. exact (IH brk r r' W H).
    - intros s IH ss IHs brk r r' (W1 & W2) (h1 & r1 & H1 & H2). destruct h1.
      + exact (IHs brk r1 r' W2 H2).
      + destruct H2; discriminate.
      + exact (IH brk r r1 W1 H1).
    - intros brk T z r r' _ (H & _). discriminate.
    - intros ks s IH cs IHc brk T z r r' (_ & W1 & W2) H. cbn [means_cases] in H. destruct (existsb (fun k => kval k =? z) ks).
      + exact (IH brk r r' W1 H).
      + exact (IHc brk T z r r' W2 H).
    - intros s IH brk T z r r' W H. exact (IH brk r r' W H).
  Qed.

  Lemma main_repeat a us ss b ts e : tk a = tREPEAT -> ok_stmts us ss -> tk b = tUNTIL -> gexpr ts e ->
    ok_stmt false (a :: us ++ b :: ts) (SRepeat ss e).
  Proof.
    intros Ha IH Hb G brk cont (W & Te) U Ln rest F Fe Lr O E l C B A Hl Hl2 HB HC HA HA2.
    destruct (ok_expr lev xs ts e xBoolean xBoolean G Te) as (pe & N & Pl & Pe & Re); [intros y Hy; apply U, in_or_app; auto|].
    inversion Ln as [|? ? La Ln1]; subst. apply Forall_app in Ln1. destruct Ln1 as (Ln1 & Ln2). inversion Ln2 as [|? ? Lb Ln3]; subst.
    cbn [length] in Hl2, HA2. rewrite app_length in Hl2, HA2. cbn [length] in Hl2, HA2.
    destruct (IH true false W) with (rest := b :: ts ++ rest) (a := a) (E := E) (l := l + 1 + 1) (C := l + 1) (B := l + 1 + 1) (A := 0)
      (O := (O ++ [mkOp oLINE 0 (tline a)]) ++ [mkOp oLABEL 0 (l + 1)])
      as (p1 & l1 & N1 & Hl1 & C1 & S1); auto; try lia.
    { intros y Hy. apply U, in_or_app. auto. }
    { cbn [hd]. rewrite Hb. cbn. tauto. }
    exists (mkOp oLINE 0 (tline a) :: mkOp oLABEL 0 (l + 1) :: p1 ++ pe ++ [mkOp oJEQUZ 0 (l + 1); mkOp oLABEL 0 (l + 1 + 1)]), l1, (S (N + N1)). split; [|split].
    - len.
    - intros [|n] Hn; [lia|]. rewrite statement_S. cbn [app]. rewrite <- app_assoc. cbn [app]. rewrite any_repeat by assumption.
      unfold repeat_statement. rewrite c_counted, c_new by lia. rewrite c_counted, c_new by lia. cbn [g_continue g_break g_adjust].
      rewrite c_loop, c_label by lia. rewrite C1 by lia. cbn [binds]. rewrite (c_expect tUNTIL) by exact Hb.
      rewrite Pe by (try lia; apply follows_ended, F). cbn [binde].
      rewrite c_jump, c_label, c_loop by (cbn; try tauto; lia). flat.
    - apply (sim_repeat (tline a) p1 pe (l + 1) (l + 1 + 1) ts e _ _ (means_seq ss) Re S1); try len.
      intros r r'. apply (proj1 (proj2 no_continue) ss true r r' W).
  Qed.
End Loops.
