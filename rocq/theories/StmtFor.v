(** FOR statements. *)

From Coq Require Import ZArith Bool List Lia ZifyBool.
From Verif Require Import Words WordLemmas State StateLemmas Opcodes EncodeModel SetModel LongModel Machine VmSpec VmProofs MemProofs MultiProofs
  OptSpec OptUnaryStep ExprModel ExprSpec ExprRun ExprOps ExprLoad ExprProofs ExprMain StmtModel StmtSpec StmtPlain StmtRun StmtStore StmtStep StmtMain.
Import ListNotations.
Open Scope Z_scope.

Section For.
  Variables (lev : Z) (xs : list var).
  Notation ok_stmt := (ok_stmt lev xs).
  Notation sim := (sim lev xs).
  Notation evaluates := (evaluates lev xs).

  Lemma stands_1 prog i p : nth_error prog i = Some p -> stands prog i [p].
  Proof. intros H [|[|k]] q K; cbn in K; try discriminate. injection K as <-. rewrite Nat.add_0_r. exact H. Qed.

  Lemma for_test (down : bool) w z : inr xInteger w = true -> inr xInteger z = true ->
    rewrites (mkOp (if down then oGT else oLT) 0 0) 0 [w mod 65536; z mod 65536]
      [(if (if down then z <? w else w <? z) then -1 else 0) mod 65536].
  Proof.
    intros W Zr. unfold inr in *. cbn in W, Zr.
    destruct down.
    - exact (rw_int_rel Greater w z ltac:(unfold s16r; lia) ltac:(unfold s16r; lia)).
    - exact (rw_int_rel Less w z ltac:(unfold s16r; lia) ltac:(unfold s16r; lia)).
  Qed.

  Lemma sim_for line pe1 pe2 p1 lf le lc x (down : bool) ts us e1 e2 k1 k M :
    vty x = xInteger -> In x xs -> ~ In x (evars e2) ->
    evaluates pe1 ts xInteger xInteger e1 -> evaluates pe2 us xInteger xInteger e2 -> sim p1 k1 lc le 0 M ->
    k1 + 3 <= k -> 2 * Z.of_nat (length ts) + 2 <= k -> 2 * Z.of_nat (length us) + 2 <= k -> 5 <= k ->
    forall C B A, sim (mkOp oLINE 0 line :: pe1 ++ refer lev oSTS x :: pe2 ++ mkOp oLABEL 0 lf :: mkOp oDUP 0 0 :: refer lev oLDS x ::
        mkOp (if down then oJGT else oJLT) 0 le :: p1 ++
        [mkOp oLABEL 0 lc; refer lev oLDS x; mkOp (if down then oDEC else oINC) 0 0; refer lev oSTS x; mkOp oJMP 0 lf; mkOp oLABEL 0 le; mkOp oINDS 0 (-2 mod 65536)]) k C B A
      (fun r h r' => h = Normal /\ exists z1 z2, evalue r xInteger e1 = Some z1 /\ evalue r xInteger e2 = Some z2 /\
        for_loop M x down z2 (set r x z1) r').
  Proof.
    intros Tx Hx Nx Re1 Re2 S1 K1 K2 K3 K5 C B A adr links base s0 Pc Ev prog i St s r h r' Rd Bs Rm (-> & z1 & z2 & V1 & V2 & Lp).
    assert (Sc : store_code lev x = [refer lev oSTS x]) by (unfold store_code; rewrite Tx; reflexivity).
    apply stands_cons in St. destruct St as (St0 & St).
    apply stands_app in St. destruct St as (StA & St). apply stands_cons in St. destruct St as (StB & St).
    apply stands_app in St. destruct St as (StC & St). apply stands_cons in St. destruct St as (StF & St).
    apply stands_cons in St. destruct St as (StD & St). apply stands_cons in St. destruct St as (StL & St).
    apply stands_cons in St. destruct St as (StJ & St). apply stands_app in St. destruct St as (StP & St).
    apply stands_cons in St. destruct St as (St1 & St). apply stands_cons in St. destruct St as (St2 & St).
    apply stands_cons in St. destruct St as (St3 & St). apply stands_cons in St. destruct St as (St4 & St).
    apply stands_cons in St. destruct St as (St5 & St). apply stands_cons in St. destruct St as (StE & St).
    apply stands_cons in St. destruct St as (St6 & _).
    set (jf := (S (S i + length pe1) + length pe2)%nat) in *.
    set (jc := (S (S (S (S jf))) + length p1)%nat) in *.
    set (je := S (S (S (S (S jc))))) in *.
    (* first value *)
    destruct (Re1 adr links base s0 Pc Ev prog (S i) StA s r z1 Rd (room_mono _ _ (2 * Z.of_nat (length ts)) Rm ltac:(lia)) V1) as (I1 & sa & Ea & Ma).
    destruct (run_storing lev xs adr links base s0 Pc Ev prog (S i + length pe1) x s sa [] r r z1) as (sb & Eb & Mb); auto.
    { rewrite Sc. apply stands_1. exact StB. }
    { rewrite Tx. exact Ma. }
    { pose proof (moves_room xs adr s sa _ r k Ma Rm) as X. apply (room_mono _ _ _ X). change (length (words xInteger z1)) with 1%nat. lia. }
    { rewrite Tx. discriminate. }
    { rewrite Tx. exact I1. }
    rewrite Sc in Eb. cbn [length] in Eb. rewrite Nat.add_1_r in Eb.
    pose proof (moves_ready lev xs adr links base s0 Pc s sb [] r _ Rd Mb) as Rdb.
    pose proof (room_same xs s sb _ adr k Mb Rm) as Rmb.
    (* final value *)
    assert (V2' : evalue (set r x z1) xInteger e2 = Some z2).
    { rewrite <- V2. apply (value_ext (set r x z1) r). intros y Hy. apply set_other. intros ->. contradiction. }
    destruct (Re2 adr links base s0 Pc Ev prog _ StC sb _ z2 Rdb (room_mono _ _ (2 * Z.of_nat (length us)) Rmb ltac:(lia)) V2') as (I2 & sc & Ec & Mc).
    change (words xInteger z2) with ([] ++ [z2 mod 65536]) in Mc.
    pose proof (moves_trans lev xs adr links base s0 Pc s sb sc [] _ r _ _ Rd Mb Mc) as Md. cbn [app] in Md. fold jf in Ec.
    (* the loop *)
    set (w := z2 mod 65536) in *.
    assert (Loop : forall q q', for_loop M x down z2 q q' -> inr xInteger (q x) = true ->
      forall t, moves xs adr s t [w] q -> exists t', runs prog (jf, t) (je, t') /\ moves xs adr s t' [w] q').
    { assert (Test : forall q t, inr xInteger (q x) = true -> moves xs adr s t [w] q ->
        exists t', runs prog (jf, t) ((if (if down then (q x <? z2)%Z else (z2 <? q x)%Z) then je else S (S (S (S jf)))), t') /\ moves xs adr s t' [w] q).
      { intros q t Iq Mt. pose proof (moves_room xs adr s t _ q k Mt Rm) as Rt. cbn [length] in Rt.
        change [w] with ([] ++ [w]) in Mt.
        destruct (run_insn lev xs adr links base s0 Pc Ev prog (S jf) (mkOp oDUP 0 0) 1 s t [] [w] [w; w] r q StD eq_refl (rw_dup w) Rd Mt
          (room_mono _ _ 1 Rt ltac:(lia))) as (t1 & E1 & M1). cbn [app] in M1.
        pose proof (moves_room xs adr s t1 _ q k M1 Rm) as Rt1. cbn [length] in Rt1.
        destruct (run_load lev xs adr links base s0 Pc Ev prog (S (S jf)) x s t1 [w; w] r q StL Tx Hx Rd M1 (room_mono _ _ 1 Rt1 ltac:(lia))) as (t2 & E2 & M2).
        change ([w; w] ++ [q x mod 65536]) with ([w] ++ [w; q x mod 65536]) in M2.
        pose proof (moves_room xs adr s t2 _ q k M2 Rm) as Rt2. cbn [length app] in Rt2.
        edestruct (run_two lev xs adr links base s0 Pc Ev prog (S (S (S jf))) je (if down then oGT else oLT) (if down then oJGT else oJLT)) as (t3 & E3 & M3);
          [exact StJ| |exact (for_test down z2 (q x) I2 Iq)|intros _; exact StE|exact Rd|exact M2|apply (room_mono _ _ 0 Rt2); lia|].
        { destruct down; cbn; tauto. }
        exists t3. split; [|exact M3].
        apply (runs_trans _ _ _ _ (run_pseudo _ _ t _ StF eq_refl)). apply (runs_trans _ _ _ _ E1). apply (runs_trans _ _ _ _ E2). exact E3. }
      assert (Body : forall q t h q1, inr xInteger (q x) = true -> ~ beyond x down z2 q -> M q h q1 -> moves xs adr s t [w] q ->
        exists t', runs prog (jf, t) (match h with Broke => je | _ => jc end, t') /\ moves xs adr s t' [w] q1).
      { intros q t h q1 Iq Nb Mb' Mt. destruct (Test q t Iq Mt) as (t1 & E1 & M1).
        replace (if down then q x <? z2 else z2 <? q x) with false in E1 by (unfold beyond in Nb; destruct down; lia).
        pose proof (moves_ready lev xs adr links base s0 Pc s t1 [w] r q Rd M1) as Rd1.
        pose proof (moves_room xs adr s t1 _ q k M1 Rm) as Rt1. cbn [length] in Rt1.
        assert (Q : outcome xs adr prog (S (S (S (S jf)))) jc lc le 0 t1 h q1).
        { apply (S1 adr links base s0 Pc Ev prog _ StP t1 q h q1 Rd1); [|apply (room_mono _ _ _ Rt1); lia|exact Mb'].
          rewrite Z.add_0_r. apply Rd1. }
        assert (Q2 : exists t2, runs prog (S (S (S (S jf))), t1) (match h with Broke => je | _ => jc end, t2) /\ moves xs adr t1 t2 [] q1).
        { destruct h; cbn [outcome] in Q.
          - exact Q.
          - destruct (Q je StE) as (t2 & E2 & X2). exists t2. split; [exact E2|apply effect_0, X2].
          - destruct (Q jc St1) as (t2 & E2 & X2). exists t2. split; [exact E2|apply effect_0, X2]. }
        destruct Q2 as (t2 & E2 & M2). exists t2. split; [apply (runs_trans _ _ _ _ E1 E2)|].
        apply (moves_again lev xs adr links base s0 Pc s t1 [w] r q q1 t2 Rd M1 M2). }
      assert (Next : forall q t, moves xs adr s t [w] q -> inr xInteger (advanced x down q) = true ->
        exists t', runs prog (jc, t) (jf, t') /\ moves xs adr s t' [w] (set q x (advanced x down q))).
      { intros q t Mt Ia. pose proof (moves_room xs adr s t _ q k Mt Rm) as Rt. cbn [length] in Rt.
        destruct (run_load lev xs adr links base s0 Pc Ev prog (S jc) x s t [w] r q St2 Tx Hx Rd Mt (room_mono _ _ 1 Rt ltac:(lia))) as (t2 & E2 & M2).
        pose proof (moves_room xs adr s t2 _ q k M2 Rm) as Rt2. cbn [length app] in Rt2.
        edestruct (run_insn lev xs adr links base s0 Pc Ev prog (S (S jc))) as (t3 & E3 & M3);
          [exact St3| |exact (rw_advance down (q x))|exact Rd|exact M2|apply (room_mono _ _ 0 Rt2); lia|].
        { destruct down; reflexivity. }
        pose proof (moves_room xs adr s t3 _ q k M3 Rm) as Rt3. cbn [length app] in Rt3.
        destruct (run_storing lev xs adr links base s0 Pc Ev prog (S (S (S jc))) x s t3 [w] r q (advanced x down q)) as (t4 & E4 & M4); auto.
        { rewrite Sc. apply stands_1. exact St4. }
        { rewrite Tx. unfold advanced. exact M3. }
        { apply (room_mono _ _ _ Rt3). lia. }
        { rewrite Tx. discriminate. }
        { rewrite Tx. exact Ia. }
        rewrite Sc in E4. cbn [length] in E4. rewrite Nat.add_1_r in E4.
        destruct (run_jmp lev xs adr links base s0 Pc Ev prog _ jf lf s t4 [w] r _ St5 StF Rd M4) as (t5 & E5 & M5).
        exists t5. split; [|exact M5].
        apply (runs_trans _ _ _ _ (run_pseudo _ _ t _ St1 eq_refl)). apply (runs_trans _ _ _ _ E2). apply (runs_trans _ _ _ _ E3).
        apply (runs_trans _ _ _ _ E4). exact E5. }
      induction 1 as [q Bq|q h q1 q2 Nb Mq Nh Ia Lq IH|q q1 Nb Mq]; intros Iq t Mt.
      - destruct (Test q t Iq Mt) as (t1 & E1 & M1).
        replace (if down then q x <? z2 else z2 <? q x) with true in E1 by (unfold beyond in Bq; destruct down; lia). eauto.
      - destruct (Body q t h q1 Iq Nb Mq Mt) as (t1 & E1 & M1). destruct (Next q1 t1 M1 Ia) as (t2 & E2 & M2).
        destruct (IH ltac:(rewrite set_same; exact Ia) t2 M2) as (t3 & E3 & M3). exists t3. split; [|exact M3].
        destruct h; [|contradiction|]; (apply (runs_trans _ _ _ _ E1), (runs_trans _ _ _ _ E2), E3).
      - apply (Body q t Broke q1 Iq Nb Mq Mt). }
    destruct (Loop _ _ Lp ltac:(rewrite set_same; exact I1) sc Md) as (sd & Ed & Me).
    pose proof (moves_room xs adr s sd _ r' k Me Rm) as Rmd. cbn [length] in Rmd.
    destruct (run_pop lev xs adr links base s0 Pc Ev prog (S je) s sd [] w r r' St6 Rd Me (room_mono _ _ 0 Rmd ltac:(lia))) as (se & Ee & Mf).
    exists se. split; [|exact Mf].
    apply (runs_trans _ _ _ _ (run_pseudo _ _ s _ St0 eq_refl)). apply (runs_trans _ _ _ _ Ea). apply (runs_trans _ _ _ _ Eb).
    apply (runs_trans _ _ _ _ Ec). apply (runs_trans _ _ _ _ Ed). apply (runs_trans _ _ _ _ (run_pseudo _ _ sd _ StE eq_refl)).
    replace (i + _)%nat with (S (S je)); [exact Ee|].
    unfold je, jc, jf. cbn [length]. rewrite app_length. cbn [length]. rewrite app_length. cbn [length]. rewrite app_length. cbn [length]. lia.
  Qed.

  Lemma main_for a t b ts x e1 d (down : bool) us e2 f vs st o : tk a = tFOR -> spells_var t x -> tk b = tASSIGN -> gexpr ts e1 ->
    tk d = (if down then tDOWNTO else tTO) -> gexpr us e2 -> tk f = tDO -> ok_stmt o vs st ->
    ok_stmt o (a :: t :: b :: ts ++ d :: us ++ f :: vs) (SFor x down e1 e2 st).
  Proof.
    intros Ha Sx Hb G1 Hd G2 Hf IH brk cont (Tx & T1 & T2 & Nx & W) U Ln rest F Fe Lr O E l C B A Hl Hl2 HB HC HA HA2.
    destruct (ok_expr lev xs ts e1 xInteger xInteger G1 T1) as (pe1 & N1 & _ & Pe1 & Re1); [intros y Hy; apply U; right; apply in_or_app; auto|].
    destruct (ok_expr lev xs us e2 xInteger xInteger G2 T2) as (pe2 & N2 & _ & Pe2 & Re2).
    { intros y Hy; apply U; right; apply in_or_app; right; apply in_or_app; auto. }
    destruct (U x (or_introl eq_refl)) as (Ux & Ua).
    inversion Ln as [|? ? La Ln1]; subst. inversion Ln1 as [|? ? _ Ln2]; subst. inversion Ln2 as [|? ? _ Ln3]; subst.
    apply Forall_app in Ln3. destruct Ln3 as (_ & Ln3). inversion Ln3 as [|? ? _ Ln4]; subst. apply Forall_app in Ln4. destruct Ln4 as (_ & Ln4).
    inversion Ln4 as [|? ? _ Ln5]; subst.
    assert (Len : Z.of_nat (length (a :: t :: b :: ts ++ d :: us ++ f :: vs)) = 5 + Z.of_nat (length ts) + Z.of_nat (length us) + Z.of_nat (length vs)).
    { cbn [length]. rewrite app_length. cbn [length]. rewrite app_length. cbn [length]. lia. }
    rewrite Len in *. clear Ln Ln1 Ln2 Ln3 Ln4.
    set (O1 := ((O ++ [mkOp oLINE 0 (tline a)]) ++ pe1) ++ [refer lev oSTS x]).
    set (O2 := (((O1 ++ pe2) ++ [mkOp oLABEL 0 (l + 1)]) ++ [mkOp oDUP 0 0]) ++ [refer lev oLDS x]).
    destruct (IH true true W) with (rest := rest) (E := E) (l := l + 1 + 1 + 1) (C := l + 1 + 1 + 1) (B := l + 1 + 1) (A := 0)
      (O := O2 ++ [mkOp (if down then oJGT else oJLT) 0 (l + 1 + 1)])
      as (p1 & l1 & N3 & Hl1 & C1 & S1); auto; try lia.
    { intros y Hy. apply U. right. apply in_or_app. right. apply in_or_app. auto. }
    exists (mkOp oLINE 0 (tline a) :: pe1 ++ refer lev oSTS x :: pe2 ++ mkOp oLABEL 0 (l + 1) :: mkOp oDUP 0 0 :: refer lev oLDS x ::
        mkOp (if down then oJGT else oJLT) 0 (l + 1 + 1) :: p1 ++
        [mkOp oLABEL 0 (l + 1 + 1 + 1); refer lev oLDS x; mkOp (if down then oDEC else oINC) 0 0; refer lev oSTS x; mkOp oJMP 0 (l + 1); mkOp oLABEL 0 (l + 1 + 1); mkOp oINDS 0 (-2 mod 65536)]),
      l1, (S (N1 + N2 + N3)). split; [lia|]. split.
    - intros [|n] Hn; [lia|]. rewrite statement_S. cbn [app]. rewrite <- app_assoc. cbn [app]. rewrite <- app_assoc. cbn [app]. rewrite any_for by assumption.
      unfold for_statement. rewrite c_counted, c_new by lia. rewrite c_counted, c_new by lia. rewrite c_counted, c_new by lia. cbn [g_continue g_break g_adjust].
      rewrite c_loop, c_get, c_token. unfold cur. cbn [hd toks].
      destruct Sx as (Sx1 & Sx2 & Sx3 & _). rewrite Sx1, Tx.
      change ((kind_of xInteger =? sSUBRANGE) || (kind_of xInteger =? sSCALAR)) with false. cbv iota.
      change (negb ((kind_of xInteger =? sINT) || (kind_of xInteger =? sWORD) || (kind_of xInteger =? sSHORTINT) || (kind_of xInteger =? sSHORTWORD) || is_long_var (kind_of xInteger))) with false. cbv iota.
      change (var_type (kind_of xInteger)) with xInteger.
      unfold assignment. rewrite c_get, (c_expect tASSIGN _ b) by exact Hb.
      rewrite Pe1; [|lia|apply (tok_ended _ _ _ Hd); destruct down; cbn; tauto]. cbn [binde].
      rewrite (c_ref _ _ _ _ _ _ _ _ oSTS (tsym t) x) by (cbn; try tauto; assumption). cbn [binds].
      fold O1. rewrite !c_token. cbn [hd].
      replace (negb ((tk d =? tDOWNTO) || (tk d =? tTO))) with false by (rewrite Hd; destruct down; reflexivity).
      replace (tk d =? tDOWNTO) with down by (rewrite Hd; destruct down; reflexivity).
      rewrite c_get. rewrite Pe2; [|lia|apply (tok_ended _ _ _ Hf); cbn; tauto]. cbn [binde].
      rewrite (c_expect tDO) by exact Hf. rewrite c_label by lia. rewrite c_simple by reflexivity.
      rewrite (c_ref _ _ _ _ _ _ _ _ oLDS (tsym t) x) by (cbn; try tauto; assumption).
      fold O2. rewrite c_jump by (destruct down; cbn; try tauto; lia).
      rewrite C1 by lia. cbn [binds]. rewrite c_label by lia.
      rewrite (c_ref _ _ _ _ _ _ _ _ oLDS (tsym t) x) by (cbn; try tauto; assumption).
      rewrite c_simple by (destruct down; reflexivity).
      rewrite (c_ref _ _ _ _ _ _ _ _ oSTS (tsym t) x) by (cbn; try tauto; assumption).
      rewrite c_jump by (cbn; try tauto; lia). rewrite c_label by lia. rewrite c_inds by lia. rewrite c_loop.
      unfold O2, O1. flat.
    - refine (sim_for (tline a) pe1 pe2 p1 (l + 1) (l + 1 + 1) (l + 1 + 1 + 1) x down ts us e1 e2 _ _ (means st) Tx Ux Nx Re1 Re2 S1 _ _ _ _ C B A); lia.
  Qed.
End For.
