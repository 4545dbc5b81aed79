(** CASE statements. *)

From Coq Require Import ZArith Bool List Lia ZifyBool.
From Verif Require Import Words WordLemmas State StateLemmas Opcodes EncodeModel SetModel LongModel Machine VmSpec VmProofs MemProofs MultiProofs
  OptSpec OptUnaryStep ExprModel ExprSpec ExprRun ExprOps ExprLoad ExprProofs ExprMain StmtModel StmtSpec StmtPlain StmtRun StmtStore StmtStep StmtMain.
Import ListNotations.
Open Scope Z_scope.
Local Transparent rewrites.

Lemma rw_push v : 0 <= v < 65536 -> rewrites (mkOp oPUSH 0 v) 1 [] [v].
Proof. intros V s R _ _. destruct (push_insn s 0 v R V) as (s' & E & F & _). exists s'. auto. Qed.

Lemma const_value T k t : is32 T = false -> const_ok T k = true -> spells_const t k ->
  tval t = kval k /\ 0 <= kval k <= 65535 /\ inr T (kval k) = true /\ is_constant (tk t) = true /\ tk t <> tELSE /\ tk t <> tEND.
Proof.
  intros L H S. destruct k as [n|n|b]; cbn [const_ok spells_const kval] in *; destruct S as (S & V); rewrite S.
  - apply andb_true_iff in H. destruct H as (H & H2). apply andb_true_iff in H. destruct H as (H0 & H1).
    assert (B : n <= 65535). { unfold inr, is16, is32 in *. destruct T; cbn in *; try discriminate; lia. }
    repeat match goal with |- _ /\ _ => split end; auto; try lia; discriminate.
  - apply andb_true_iff in H. destruct H as (H0 & H1). assert (n <= 255 /\ 0 <= n).
    { unfold same in H0. destruct (teq T xChar) eqn:Q; [|discriminate]. apply teq_true in Q. subst T. unfold inr in H1. cbn in H1. lia. }
    repeat match goal with |- _ /\ _ => split end; auto; try lia; discriminate.
  - apply andb_true_iff in H. destruct H as (H0 & H1). destruct b; [discriminate|].
    unfold same in H0. destruct (teq T xBoolean) eqn:Q; [|discriminate]. apply teq_true in Q. subst T.
    repeat match goal with |- _ /\ _ => split end; auto; try lia; discriminate.
Qed.

Section Case.
  Variables (lev : Z) (xs : list var).
  Notation ok_stmt := (ok_stmt lev xs).
  Notation ok_cases := (ok_cases lev xs).
  Notation sim := (sim lev xs).
  Notation sim_cases := (sim_cases lev xs).

  Section Selector.
    Variables (adr : var -> Z) (links : Z -> Prop) (base : Z) (s0 : st).
    Hypothesis P : placed lev xs adr links base s0.
    Hypothesis Even : c_ssz (cf s0) mod 2 = 0.
    Notation ready := (ready xs adr links base s0).
    Notation moves := (moves xs adr).

    Lemma tops_kept s s' r w : base < sp s / 2 -> moves s s' [] r -> tops s [w] -> tops s' [w].
    Proof.
      clear Even. intros B (M1 & M2 & M3 & M4 & M5) T. pose proof (T 0%nat w eq_refl) as T0. intros [|[|k]] v K; cbn in K; try discriminate. injection K as <-.
      cbn [length] in *. replace (sp s') with (sp s) by lia. rewrite M4; [exact T0|lia|].
      apply (above_vars lev xs adr links base s0 P). lia.
    Qed.

    Lemma run_dup prog i s r w : nth_error prog i = Some (mkOp oDUP 0 0) -> ready s r -> room s 1 -> 2 <= sp s -> tops s [w] ->
      exists s', runs prog (i, s) (S i, s') /\ moves s s' [w] r.
    Proof.
      intros N Rd Rm S2 T. destruct (rw_dup w s Rm ltac:(cbn; lia) T) as (s' & E & F). exists s'. split.
      - destruct (plain_flow s (mkOp oDUP 0 0) eq_refl) as (Q1 & Q3 & Q2). rewrite E in Q2. apply runs_one. eapply step_falls; eauto.
      - apply (moves_pushed lev xs adr links base s0 P Even s s' [w] r Rd). destruct F as (F1 & F2 & F3 & F4).
        pose proof (F3 0%nat w eq_refl) as W0. pose proof (F3 1%nat w eq_refl) as W1. cbn [length] in *.
        split; [exact F1|]. split; [cbn [length]; lia|]. split.
        + intros [|[|k]] v K; cbn in K; try discriminate. injection K as <-. rewrite <- W1. f_equal. lia.
        + intros j Hj. destruct (Z.eq_dec j (sp s / 2)) as [->|Ne].
          * pose proof (T 0%nat w eq_refl) as T0. cbn [length] in T0. replace (sp s / 2) with (sp s / 2 - Z.of_nat 1 + 1 + Z.of_nat 0) by lia.
            transitivity (Some w); [rewrite <- W0|rewrite <- T0]; f_equal; lia.
          * apply F4. lia.
    Qed.

    (** DUP, PUSH and the jump for one constant *)
    Lemma run_const prog i j c k (eq : bool) l T z v s r : stands prog i [mkOp oDUP 0 0; mkOp oPUSH 0 v; mkOp k 0 l] ->
      (c, k, eq) = (oEQU, oJEQU, true) \/ (c, k, eq) = (oNEQ, oJNEQ, false) -> 0 <= v <= 65535 -> is32 T = false -> inr T v = true -> inr T z = true ->
      (Bool.eqb (v =? z) eq = true -> labelled prog l j) ->
      ready s r -> room s 2 -> 2 <= sp s -> tops s [z mod 65536] ->
      exists s', runs prog (i, s) ((if Bool.eqb (v =? z) eq then j else S (S (S i))), s') /\ moves s s' [] r.
    Proof.
      intros St K V L Iv Iz Lb Rd Rm S2 T0.
      apply stands_cons in St. destruct St as (St1 & St). apply stands_cons in St. destruct St as (St2 & St). apply stands_cons in St. destruct St as (St3 & _).
      destruct (run_dup prog i s r _ St1 Rd (room_mono _ _ 1 Rm ltac:(lia)) S2 T0) as (s1 & E1 & M1).
      pose proof (moves_room xs adr s s1 _ r 2 M1 Rm) as Rm1. cbn [length] in Rm1.
      assert (M1' : moves s s1 ([z mod 65536] ++ []) r) by (rewrite app_nil_r; exact M1).
      destruct (run_insn lev xs adr links base s0 P Even prog (S i) (mkOp oPUSH 0 v) 1 s s1 [z mod 65536] [] [v] r r St2 eq_refl (rw_push v ltac:(lia)) Rd M1'
        (room_mono _ _ 1 Rm1 ltac:(lia))) as (s2 & E2 & M2). cbn [app] in M2. change [z mod 65536; v] with ([] ++ [z mod 65536; v]) in M2.
      pose proof (moves_room xs adr s s2 _ r 2 M2 Rm) as Rm2. cbn [length app] in Rm2.
      assert (Q : (z mod 65536 =? v) = (v =? z)).
      { rewrite <- (mod_equal T v z L Iv Iz). rewrite (Z.mod_small v) by lia. apply Z.eqb_sym. }
      edestruct (run_two lev xs adr links base s0 P Even prog (S (S i)) j c k (Bool.eqb (z mod 65536 =? v) eq)) as (s3 & E3 & M3);
        [exact St3| | |intros H; apply Lb; rewrite <- Q; exact H|exact Rd|exact M2|apply (room_mono _ _ 0 Rm2); lia|].
      { destruct K as [[= -> -> ->]|[= -> -> ->]]; cbn; tauto. }
      { apply rw_equal; [|pose proof (Z.mod_pos_bound z 65536); lia|lia]. destruct K as [[= -> -> ->]|[= -> -> ->]]; auto. }
      rewrite Q in E3. exists s3. split; [|exact M3]. apply (runs_trans _ _ _ _ E1), (runs_trans _ _ _ _ E2), E3.
    Qed.
  End Selector.

  Definition sim_consts (ps : list opType) (sL nL : Z) (T : etype) (ks : list kconst) : Prop :=
    forall adr links base s0, placed lev xs adr links base s0 -> c_ssz (cf s0) mod 2 = 0 ->
    forall prog i j, stands prog i ps -> labelled prog sL (i + length ps) -> labelled prog nL j -> forall s r z,
    ready xs adr links base s0 s r -> base < sp s / 2 -> room s 2 -> 2 <= sp s -> tops s [z mod 65536] -> inr T z = true ->
    exists s', runs prog (i, s) ((if existsb (fun k => (kval k =? z)%Z) ks then i + length ps else j)%nat, s') /\ moves xs adr s s' [] r.

  Lemma main_consts ts ks T : gconsts ts ks -> is32 T = false -> forallb (const_ok T) ks = true ->
    forall sL nL, 0 <= sL <= 65535 -> 0 <= nL <= 65535 ->
    exists ps, (forall n rest O E l C B A, (length ts <= n)%nat -> tk (hd eoftok rest) <> tCOMMA ->
        case_constants n sL nL (mkComp (ts ++ rest) O E l lev C B A) = SDone (mkComp rest (O ++ ps) E l lev C B A)) /\
      sim_consts ps sL nL T ks.
  Proof.
    intros G L. induction G as [t k Sp|t k a ts ks Sp Ha G IH]; intros W sL nL HsL HnL; cbn [forallb] in W; apply andb_true_iff in W; destruct W as (Wk & W).
    - destruct (const_value T k t L Wk Sp) as (Vt & Vk & Ik & Ct & _).
      exists [mkOp oDUP 0 0; mkOp oPUSH 0 (kval k); mkOp oJNEQ 0 nL]. split.
      + intros [|n] rest O E l C B A Hn Hr; [cbn in Hn; lia|]. cbn [case_constants app]. rewrite c_simple by reflexivity.
        rewrite c_token. unfold cur. cbn [hd toks]. rewrite Ct, Vt. replace (65535 <? kval k) with false by lia. cbn [error_if].
        rewrite emit_push by lia. rewrite Z.mod_small by lia. unfold append. cbn [toks out errs g_label g_level g_continue g_break g_adjust].
        rewrite c_get, c_token. replace (tk (hd eoftok rest) =? tCOMMA) with false by lia. rewrite c_jump by (cbn; try tauto; lia). flat.
      + intros adr links base s0 Pc Ev prog i j St Ls Ln s r z Rd Bs Rm S2 Tp Iz.
        destruct (run_const adr links base s0 Pc Ev prog i j oNEQ oJNEQ false nL T z (kval k) s r St (or_intror eq_refl) Vk L Ik Iz (fun _ => Ln) Rd Rm S2 Tp) as (s1 & E1 & M1).
        exists s1. split; [|exact M1]. cbn [existsb length]. rewrite orb_false_r. replace (i + 3)%nat with (S (S (S i))) by lia.
        destruct (kval k =? z); exact E1.
    - destruct (const_value T k t L Wk Sp) as (Vt & Vk & Ik & Ct & _). destruct (IH W sL nL HsL HnL) as (ps & Cp & Sm).
      exists (mkOp oDUP 0 0 :: mkOp oPUSH 0 (kval k) :: mkOp oJEQU 0 sL :: ps). split.
      + intros [|n] rest O E l C B A Hn Hr; [cbn in Hn; lia|]. cbn [case_constants app]. rewrite c_simple by reflexivity.
        rewrite c_token. unfold cur. cbn [hd toks]. rewrite Ct, Vt. replace (65535 <? kval k) with false by lia. cbn [error_if].
        rewrite emit_push by lia. rewrite Z.mod_small by lia. unfold append. cbn [toks out errs g_label g_level g_continue g_break g_adjust].
        rewrite c_get, c_token. cbn [hd]. rewrite Ha, Z.eqb_refl. rewrite c_jump by (cbn; try tauto; lia). rewrite c_get.
        rewrite Cp by (cbn [length] in Hn; try lia; exact Hr). flat.
      + intros adr links base s0 Pc Ev prog i j St Ls Ln s r z Rd Bs Rm S2 Tp Iz.
        change (mkOp oDUP 0 0 :: mkOp oPUSH 0 (kval k) :: mkOp oJEQU 0 sL :: ps) with ([mkOp oDUP 0 0; mkOp oPUSH 0 (kval k); mkOp oJEQU 0 sL] ++ ps) in *.
        rewrite app_length in *. apply stands_app in St. destruct St as (St1 & St2). cbn [length] in *.
        destruct (run_const adr links base s0 Pc Ev prog i _ oEQU oJEQU true sL T z (kval k) s r St1 (or_introl eq_refl) Vk L Ik Iz (fun _ => Ls) Rd Rm S2 Tp) as (s1 & E1 & M1).
        cbn [existsb]. destruct (kval k =? z); cbn [Bool.eqb orb] in *.
        * exists s1. split; [|exact M1]. exact E1.
        * pose proof M1 as (_ & Q & _). cbn [length] in Q.
          destruct (Sm adr links base s0 Pc Ev prog (i + 3)%nat j St2) with (s := s1) (r := r) (z := z) as (s2 & E2 & M2); auto.
          { rewrite <- Nat.add_assoc. exact Ls. }
          { apply (moves_ready lev xs adr links base s0 Pc s s1 [] r r Rd M1). }
          { replace (sp s1) with (sp s) by lia. exact Bs. }
          { apply (room_same xs s s1 r adr _ M1 Rm). }
          { lia. }
          { apply (tops_kept adr links base s0 Pc s s1 r _ Bs M1 Tp). }
          exists s2. split; [|apply (moves_again lev xs adr links base s0 Pc s s1 [] r r r s2 Rd M1 M2)].
          replace (S (S (S i))) with (i + 3)%nat in E1 by lia. rewrite Nat.add_assoc. apply (runs_trans _ _ _ _ E1 E2).
  Qed.

  Lemma sim_end nL k C B A e T : sim_cases [mkOp oLABEL 0 nL] k C B A e T (means_cases CEnd).
  Proof.
    intros adr links base s0 Pc Ev prog i St Le s r z h r' Rd Bs Rm S2 Tp Iz (-> & ->). apply stands_cons in St. destruct St as (St & _).
    exists s. split; [|apply (moves_refl xs adr links base s0 s r Rd)]. cbn [length]. rewrite Nat.add_1_r. apply (run_pseudo _ _ _ _ St eq_refl).
  Qed.
  Lemma sim_otherwise lt p1 k1 k C B A e T M : A <= -2 -> sim p1 k1 C B A M -> k1 <= k ->
    sim_cases (mkOp oLABEL 0 lt :: p1) k C B A e T (fun _ => M).
  Proof.
    intros HA S1 Hk adr links base s0 Pc Ev prog i St Le s r z h r' Rd Bs Rm S2 Tp Iz Ms. apply stands_cons in St. destruct St as (St0 & St).
    apply (outcome_pre lev xs adr links base s0 Pc prog i (S i) _ C B A s s r r h r' Rd (run_pseudo _ _ s _ St0 eq_refl) (moves_refl xs adr links base s0 s r Rd) ltac:(lia)).
    replace (i + length (mkOp oLABEL 0 lt :: p1))%nat with (S i + length p1)%nat by (cbn [length]; lia).
    apply (S1 adr links base s0 Pc Ev prog (S i) St s r h r' Rd Bs); [|exact Ms]. apply (room_mono _ _ _ Rm Hk).
  Qed.

  Lemma sim_one lt sL nL pc p1 tail k1 k2 k C B A e T ks M M2 : A <= -2 ->
    sim_consts pc sL nL T ks -> sim p1 k1 C B A M -> hd_error tail = Some (mkOp oLABEL 0 nL) -> sim_cases tail k2 C B A e T M2 ->
    k1 <= k -> k2 <= k -> 2 <= k ->
    sim_cases (mkOp oLABEL 0 lt :: pc ++ mkOp oLABEL 0 sL :: p1 ++ mkOp oJMP 0 e :: tail) k C B A e T
      (fun z r h r' => if existsb (fun k => kval k =? z) ks then M r h r' else M2 z r h r').
  Proof.
    intros HA Sc S1 Ht S2 K1 K2 K3 adr links base s0 Pc Ev prog i St Le s r z h r' Rd Bs Rm Sp2 Tp Iz Ms.
    set (fin := (i + length (mkOp oLABEL 0 lt :: pc ++ mkOp oLABEL 0 sL :: p1 ++ mkOp oJMP 0 e :: tail))%nat) in *.
    apply stands_cons in St. destruct St as (St0 & St). apply stands_app in St. destruct St as (StC & St).
    apply stands_cons in St. destruct St as (StL & St). apply stands_app in St. destruct St as (StP & St).
    apply stands_cons in St. destruct St as (StJ & StT).
    assert (StN : labelled prog nL (S (S (S i + length pc) + length p1))).
    { destruct tail as [|p q]; cbn in Ht; [discriminate|]. injection Ht as ->. apply stands_cons in StT. apply StT. }
    assert (Fin : fin = (S (S (S i + length pc) + length p1) + length tail)%nat).
    { unfold fin. cbn [length]. rewrite app_length. cbn [length]. rewrite app_length. cbn [length]. lia. }
    assert (Bs' : base < sp s / 2).
    { assert ((sp s + A) / 2 <= (sp s + (-1) * 2) / 2) by (apply Z.div_le_mono; lia). rewrite Z.div_add in H by lia. lia. }
    destruct (Sc adr links base s0 Pc Ev prog (S i) _ StC StL StN s r z Rd Bs' (room_mono _ _ 2 Rm K3) Sp2 Tp Iz) as (s1 & E1 & M1).
    pose proof (runs_trans _ _ _ _ (run_pseudo _ _ s _ St0 eq_refl) E1) as E2.
    pose proof (moves_ready lev xs adr links base s0 Pc s s1 [] r r Rd M1) as Rd1.
    assert (Bs1 : base <= (sp s1 + A) / 2) by (destruct M1 as (_ & Q & _); cbn [length] in Q; replace (sp s1) with (sp s) by lia; exact Bs).
    assert (Sp1 : 2 <= sp s1) by (destruct M1 as (_ & Q & _); cbn [length] in Q; lia).
    pose proof (room_same xs s s1 r adr _ M1 Rm) as Rm1.
    apply (outcome_pre lev xs adr links base s0 Pc prog i _ _ C B A s s1 r r h r' Rd E2 M1 ltac:(lia)).
    destruct (existsb (fun k => kval k =? z) ks).
    - pose proof (run_pseudo _ _ s1 _ StL eq_refl) as E3.
      apply (outcome_pre lev xs adr links base s0 Pc prog _ _ _ C B A s1 s1 r r h r' Rd1 E3 (moves_refl xs adr links base s0 s1 r Rd1) ltac:(lia)).
      assert (Q : outcome xs adr prog (S (S i + length pc)) (S (S i + length pc) + length p1) C B A s1 h r').
      { apply (S1 adr links base s0 Pc Ev prog _ StP s1 r h r' Rd1 Bs1); [|exact Ms]. apply (room_mono _ _ _ Rm1 K1). }
      apply (outcome_post _ _ _ _ _ _ _ _ _ _ _ _ Q). intros s2 Q2.
      apply (run_jmp lev xs adr links base s0 Pc Ev prog _ _ _ s1 s2 [] r r' StJ Le Rd1 Q2).
    - rewrite Fin in *. apply (S2 adr links base s0 Pc Ev prog _ StT Le s1 r z h r' Rd1 Bs1 (room_mono _ _ _ Rm1 K2) Sp1); [|exact Iz|exact Ms].
      apply (tops_kept adr links base s0 Pc s s1 r _ Bs' M1 Tp).
  Qed.

  Lemma gcases_head ts cs rest : gcases ts cs -> tk (hd eoftok (ts ++ rest)) <> tEND.
  Proof.
    assert (K : forall ts ks rest, gconsts ts ks -> tk (hd eoftok (ts ++ rest)) <> tEND).
    { intros us ks r' H. assert (S : forall t k, spells_const t k -> tk t <> tEND) by (intros t k; destruct k; cbn; intros (-> & _); discriminate).
      destruct H; cbn [app hd]; eapply S; eassumption. }
    destruct 1 as [us ks a|us ks a|us ks a|a|a];
      [rewrite <- app_assoc; eapply K; eassumption|rewrite <- app_assoc; eapply K; eassumption|rewrite <- app_assoc; eapply K; eassumption| |];
      cbn [app hd]; match goal with H : tk _ = tELSE |- _ => rewrite H end; discriminate.
  Qed.

  Lemma consts_head ts ks rest : gconsts ts ks -> tk (hd eoftok (ts ++ rest)) <> tELSE.
  Proof.
    intros H. assert (S : forall t k, spells_const t k -> tk t <> tELSE) by (intros t k; destruct k; cbn; intros (-> & _); discriminate).
    destruct H; cbn [app hd]; eapply S; eassumption.
  Qed.

  (** One case up to and including the jump behind its statement *)
  Lemma head_case brk cont T ts ks a o us st :
    gconsts ts ks -> tk a = tCOLON -> ok_stmt o us st ->
    is32 T = false -> forallb (const_ok T) ks = true -> wf_stmt brk cont st -> (forall x, In x (stmt_vars st) -> usable lev xs x) ->
    Forall line_ok us ->
    forall rest this e O E l C B A, follows rest -> tk (hd eoftok rest) <> tELSE -> line_ok (hd eoftok rest) ->
    0 <= this <= 65535 -> 0 <= e <= 65535 -> 0 <= l -> l + 2 + 2 * Z.of_nat (length us) <= 65535 ->
    (brk = true -> 0 < B <= 65535) -> (cont = true -> 0 < C <= 65535) -> A <= -2 -> -32768 <= A - 2 * Z.of_nat (length us) ->
    exists pc p1 l1 N, l + 2 <= l1 <= l + 2 + 2 * Z.of_nat (length us) /\
      sim_consts pc (l + 1 + 1) (l + 1) T ks /\ sim p1 (2 * Z.of_nat (length us)) C B A (means st) /\
      forall n, (N <= n)%nat ->
      cases (S n) this e (mkComp (ts ++ a :: us ++ rest) O E l lev C B A) =
      (let c := mkComp rest (O ++ mkOp oLABEL 0 this :: pc ++ mkOp oLABEL 0 (l + 1 + 1) :: p1 ++ [mkOp oJMP 0 e]) E l1 lev C B A in
      if negb (token c =? tSEMICOLON) && negb (token c =? tEND) then SDone (error eEND c)
      else
        let c := if token c =? tSEMICOLON then getToken c else c in
        if token c =? tEND then SDone (getToken (data_op oLABEL (l + 1) c))
        else cases n (l + 1) e c).
  Proof.
    intros Gc Ha IH L Wk W U Ln rest this e O E l C B A F Fe Lr Ht He Hl Hl2 HB HC HA HA2.
    destruct (main_consts ts ks T Gc L Wk (l + 1 + 1) (l + 1) ltac:(lia) ltac:(lia)) as (pc & Pc & Sc).
    destruct (IH brk cont W U Ln rest F) with (E := E) (l := l + 1 + 1) (C := C) (B := B) (A := A)
      (O := ((O ++ [mkOp oLABEL 0 this]) ++ pc) ++ [mkOp oLABEL 0 (l + 1 + 1)])
      as (p1 & l1 & N1 & Hl1 & C1 & S1); auto; try lia.
    exists pc, p1, l1, (length ts + N1)%nat. split; [lia|]. split; [exact Sc|]. split; [exact S1|].
    intros n Hn. rewrite cases_S. unfold one_case. rewrite c_counted, c_new, c_token by lia.
    replace (tk (hd eoftok (ts ++ a :: us ++ rest)) =? tELSE) with false by (pose proof (consts_head ts ks (a :: us ++ rest) Gc); lia).
    rewrite c_counted, c_new, c_label by lia.
    rewrite Pc; [|lia|cbn [hd]; rewrite Ha; discriminate]. cbn [binds].
    rewrite (c_expect tCOLON) by exact Ha. rewrite c_label by lia. rewrite C1 by lia. cbn [binds]. rewrite c_jump by (cbn; try tauto; lia).
    rewrite <- !app_assoc. reflexivity.
  Qed.

  Lemma follows_end t rest : tk t = tEND \/ tk t = tSEMICOLON -> follows (t :: rest) /\ tk (hd eoftok (t :: rest)) <> tELSE.
  Proof. unfold follows. cbn [hd In]. intros [-> | ->]; split; try discriminate; tauto. Qed.

  Ltac fin := cbn [length app] in *; rewrite ?app_length in *; cbn [length] in *; rewrite ?app_length in *; cbn [length] in *.

  Lemma consts_len ts ks : gconsts ts ks -> (1 <= length ts)%nat.
  Proof. destruct 1; cbn; lia. Qed.

  Lemma main_last ts ks a o us st ds b : gconsts ts ks -> tk a = tCOLON -> ok_stmt o us st -> tk b = tEND ->
    ds = [] \/ (exists d, ds = [d] /\ tk d = tSEMICOLON) ->
    ok_cases (ts ++ a :: us ++ ds ++ [b]) (CCase ks st CEnd).
  Proof.
    intros Gc Ha IH Hb Hds brk cont T L (Wk & W & _) U Ln rest this e O E l C B A Ht He Hl Hl2 HB HC HA HA2.
    apply Forall_app in Ln. destruct Ln as (_ & Ln). inversion Ln as [|? ? _ Ln1]; subst. apply Forall_app in Ln1. destruct Ln1 as (Ln1 & Ln2).
    pose proof (consts_len _ _ Gc) as Lc.
    assert (Lh : line_ok (hd eoftok (ds ++ b :: rest)) /\ follows (ds ++ b :: rest) /\ tk (hd eoftok (ds ++ b :: rest)) <> tELSE).
    { destruct Hds as [->|(d & -> & Hd)]; cbn [app] in *; inversion Ln2; subst; (split; [assumption|apply follows_end; auto]). }
    destruct Lh as (Lh & Fh & Eh).
    assert (Len : Z.of_nat (length (ts ++ a :: us ++ ds ++ [b])) = Z.of_nat (length ts) + Z.of_nat (length us) + Z.of_nat (length ds) + 2) by (fin; lia).
    rewrite Len in *.
    destruct (head_case brk cont T ts ks a o us st Gc Ha IH L Wk W) with (rest := ds ++ b :: rest) (this := this) (e := e) (O := O) (E := E) (l := l) (C := C) (B := B) (A := A)
      as (pc & p1 & l1 & N & Hl1 & Sc & S1 & Cp); auto; try lia.
    { intros y Hy. apply U, in_or_app. auto. }
    exists (mkOp oLABEL 0 this :: pc ++ mkOp oLABEL 0 (l + 1 + 1) :: p1 ++ mkOp oJMP 0 e :: [mkOp oLABEL 0 (l + 1)]), l1, (S N).
    split; [lia|]. split; [reflexivity|]. split.
    - intros [|n] Hn; [lia|].
      replace ((ts ++ a :: us ++ ds ++ [b]) ++ rest) with (ts ++ a :: us ++ ds ++ b :: rest) by (rewrite <- !app_assoc; cbn [app]; rewrite <- !app_assoc; reflexivity).
      rewrite Cp by lia. cbv zeta. rewrite !c_token.
      destruct Hds as [->|(d & -> & Hd)]; cbn [app hd].
      + rewrite Hb. change (tEND =? tSEMICOLON) with false. rewrite Z.eqb_refl. cbn [negb andb]. rewrite c_token. cbn [hd]. rewrite Hb, Z.eqb_refl.
        rewrite c_label, c_get by lia. rewrite <- !app_assoc. cbn [app]. rewrite <- !app_assoc. cbn [app]. rewrite <- !app_assoc. reflexivity.
      + rewrite Hd, Z.eqb_refl. cbn [negb andb]. rewrite c_get, c_token. cbn [hd]. rewrite Hb, Z.eqb_refl.
        rewrite c_label, c_get by lia. rewrite <- !app_assoc. cbn [app]. rewrite <- !app_assoc. cbn [app]. rewrite <- !app_assoc. reflexivity.
    - refine (sim_one this (l + 1 + 1) (l + 1) pc p1 [mkOp oLABEL 0 (l + 1)] _ 0 _ C B A e T ks (means st) (means_cases CEnd) HA Sc S1 eq_refl (sim_end _ _ _ _ _ _ _) _ _ _); lia.
  Qed.

  Lemma main_cases ts ks a o us st d vs cs : gconsts ts ks -> tk a = tCOLON -> ok_stmt o us st -> tk d = tSEMICOLON -> gcases vs cs -> ok_cases vs cs ->
    ok_cases (ts ++ a :: us ++ d :: vs) (CCase ks st cs).
  Proof.
    intros Gc Ha IH Hd Gv IHc brk cont T L (Wk & W & Wc) U Ln rest this e O E l C B A Ht He Hl Hl2 HB HC HA HA2.
    apply Forall_app in Ln. destruct Ln as (_ & Ln). inversion Ln as [|? ? _ Ln1]; subst. apply Forall_app in Ln1. destruct Ln1 as (Ln1 & Ln2).
    inversion Ln2 as [|? ? Ld Ln3]; subst.
    pose proof (consts_len _ _ Gc) as Lc.
    destruct (follows_end d (vs ++ rest) (or_intror Hd)) as (Fh & Eh).
    assert (Len : Z.of_nat (length (ts ++ a :: us ++ d :: vs)) = Z.of_nat (length ts) + Z.of_nat (length us) + Z.of_nat (length vs) + 2) by (fin; lia).
    rewrite Len in *.
    destruct (head_case brk cont T ts ks a o us st Gc Ha IH L Wk W) with (rest := d :: vs ++ rest) (this := this) (e := e) (O := O) (E := E) (l := l) (C := C) (B := B) (A := A)
      as (pc & p1 & l1 & N & Hl1 & Sc & S1 & Cp); auto; try lia.
    { intros y Hy. apply U, in_or_app. auto. }
    destruct (IHc brk cont T L Wc) with (rest := rest) (this := l + 1) (e := e) (E := E) (l := l1) (C := C) (B := B) (A := A)
      (O := O ++ mkOp oLABEL 0 this :: pc ++ mkOp oLABEL 0 (l + 1 + 1) :: p1 ++ [mkOp oJMP 0 e])
      as (p2 & l2 & N2 & Hl2' & Hp & C2 & S2); auto; try lia.
    { intros y Hy. apply U, in_or_app. auto. }
    exists (mkOp oLABEL 0 this :: pc ++ mkOp oLABEL 0 (l + 1 + 1) :: p1 ++ mkOp oJMP 0 e :: p2), l2, (S (N + N2)).
    split; [lia|]. split; [reflexivity|]. split.
    - intros [|n] Hn; [lia|].
      replace ((ts ++ a :: us ++ d :: vs) ++ rest) with (ts ++ a :: us ++ d :: vs ++ rest) by (rewrite <- !app_assoc; cbn [app]; rewrite <- !app_assoc; reflexivity).
      rewrite Cp by lia. cbv zeta. rewrite !c_token. cbn [hd]. rewrite Hd, Z.eqb_refl. cbn [negb andb]. rewrite c_get, c_token.
      replace (tk (hd eoftok (vs ++ rest)) =? tEND) with false by (pose proof (gcases_head vs cs rest Gv); lia).
      rewrite C2 by lia. rewrite <- !app_assoc. cbn [app]. rewrite <- !app_assoc. cbn [app]. rewrite <- !app_assoc. reflexivity.
    - refine (sim_one this (l + 1 + 1) (l + 1) pc p1 p2 _ _ _ C B A e T ks (means st) (means_cases cs) HA Sc S1 Hp S2 _ _ _); lia.
  Qed.

  Lemma main_else a o us st ds b : tk a = tELSE -> ok_stmt o us st -> tk b = tEND ->
    ds = [] \/ (exists d, ds = [d] /\ tk d = tSEMICOLON) -> ok_cases (a :: us ++ ds ++ [b]) (CElse st).
  Proof.
    intros Ha IH Hb Hds brk cont T L W U Ln rest this e O E l C B A Ht He Hl Hl2 HB HC HA HA2.
    inversion Ln as [|? ? La Ln1]; subst. apply Forall_app in Ln1. destruct Ln1 as (Ln1 & Ln2).
    assert (Lh : line_ok (hd eoftok (ds ++ b :: rest)) /\ follows (ds ++ b :: rest) /\ tk (hd eoftok (ds ++ b :: rest)) <> tELSE).
    { destruct Hds as [->|(d & -> & Hd)]; cbn [app] in *; inversion Ln2; subst; (split; [assumption|apply follows_end; auto]). }
    destruct Lh as (Lh & Fh & Eh).
    assert (Len : Z.of_nat (length (a :: us ++ ds ++ [b])) = Z.of_nat (length us) + Z.of_nat (length ds) + 2) by (fin; lia).
    rewrite Len in *.
    destruct (IH brk cont W) with (rest := ds ++ b :: rest) (E := E) (l := l + 1) (C := C) (B := B) (A := A) (O := O ++ [mkOp oLABEL 0 this])
      as (p1 & l1 & N1 & Hl1 & C1 & S1); auto; try lia.
    exists (mkOp oLABEL 0 this :: p1), l1, (S N1). split; [lia|]. split; [reflexivity|]. split.
    - intros [|n] Hn; [lia|].
      replace ((a :: us ++ ds ++ [b]) ++ rest) with (a :: us ++ ds ++ b :: rest) by (cbn [app]; rewrite <- !app_assoc; reflexivity).
      rewrite cases_S. unfold one_case. rewrite c_counted, c_new, c_token by lia. cbn [hd]. rewrite Ha, Z.eqb_refl.
      rewrite c_get, c_label by lia. rewrite C1 by lia. cbn [binds]. rewrite c_token.
      destruct Hds as [->|(d & -> & Hd)]; cbn [app hd].
      + rewrite Hb. change (tEND =? tSEMICOLON) with false. cbv iota. rewrite c_expect by exact Hb. rewrite <- app_assoc. reflexivity.
      + rewrite Hd, Z.eqb_refl, c_get. rewrite c_expect by exact Hb. rewrite <- app_assoc. reflexivity.
    - apply (sim_otherwise this p1 _ _ C B A e T (means st) HA S1). lia.
  Qed.

  Lemma main_case a ts e b us cs : tk a = tCASE -> gexpr ts e -> tk b = tOF -> ok_cases us cs ->
    ok_stmt false (a :: ts ++ b :: us) (SCase e cs).
  Proof.
    intros Ha G Hb IH brk cont (T & Te & L & W) U Ln rest F Fe Lr O E l C B A Hl Hl2 HB HC HA HA2.
    destruct (ok_expr lev xs ts e xAnyOrdinal T G Te) as (pe & N & _ & Pe & Re); [intros y Hy; apply U, in_or_app; auto|].
    inversion Ln as [|? ? La Ln1]; subst. apply Forall_app in Ln1. destruct Ln1 as (_ & Ln1). inversion Ln1 as [|? ? _ Ln2]; subst.
    assert (Len : Z.of_nat (length (a :: ts ++ b :: us)) = Z.of_nat (length ts) + Z.of_nat (length us) + 2) by (fin; lia).
    rewrite Len in *.
    destruct (IH brk cont T L W) with (rest := rest) (this := l + 1) (e := l + 1 + 1) (E := E) (l := l + 1 + 1) (C := C) (B := B) (A := A - 2)
      (O := (O ++ [mkOp oLINE 0 (tline a)]) ++ pe)
      as (p1 & l1 & N1 & Hl1 & Hp & C1 & S1); auto; try lia.
    { intros y Hy. apply U, in_or_app. auto. }
    exists (mkOp oLINE 0 (tline a) :: pe ++ p1 ++ [mkOp oLABEL 0 (l + 1 + 1); mkOp oINDS 0 (-2 mod 65536)]), l1, (S (N + N1)). split; [lia|]. split.
    - intros [|n] Hn; [lia|]. rewrite statement_S. cbn [app]. rewrite <- app_assoc. cbn [app]. rewrite any_case by assumption.
      unfold case_statement. rewrite c_counted, c_new by lia. rewrite c_counted, c_new, c_get by lia.
      rewrite Pe by (try lia; apply (tok_ended _ _ tOF Hb); cbn; tauto). cbn [binde].
      rewrite (c_expect tOF) by exact Hb. cbn [g_continue g_break g_adjust]. rewrite c_loop.
      replace (s16 (A - 2)) with (A - 2) by (unfold s16, u16; destruct ((A - 2) mod 65536 <? 32768) eqn:Q; lia).
      rewrite C1 by lia. cbn [binds]. rewrite c_label by lia. rewrite c_inds by lia. cbn [g_continue g_break g_adjust]. rewrite c_loop.
      replace (s16 (A - 2 + 2)) with A by (unfold s16, u16; destruct ((A - 2 + 2) mod 65536 <? 32768) eqn:Q; lia).
      flat.
    - intros adr links base s0 Pc Ev prog i St s r h r' Rd Bs Rm (z & V & Ms).
      set (fin := (i + length (mkOp oLINE 0 (tline a) :: pe ++ p1 ++ [mkOp oLABEL 0 (l + 1 + 1); mkOp oINDS 0 (-2 mod 65536)]))%nat).
      apply stands_cons in St. destruct St as (St0 & St). apply stands_app in St. destruct St as (StE & St).
      apply stands_app in St. destruct St as (StC & St). apply stands_cons in St. destruct St as (StL & St). apply stands_cons in St. destruct St as (StI & _).
      assert (Fin : fin = S (S (S i + length pe + length p1))).
      { unfold fin. cbn [length]. rewrite app_length, app_length. cbn [length]. lia. }
      destruct (Re adr links base s0 Pc Ev prog (S i) StE s r z Rd (room_mono _ _ (2 * Z.of_nat (length ts)) Rm ltac:(lia)) V) as (Iz & s1 & E1 & M1).
      unfold words in M1. rewrite L in M1. change [z mod 65536] with ([] ++ [z mod 65536]) in M1.
      pose proof (moves_ready lev xs adr links base s0 Pc s s1 _ r r Rd M1) as Rd1.
      pose proof (moves_room xs adr s s1 _ r _ M1 Rm) as Rm1. cbn [length app] in Rm1.
      pose proof (moves_sp lev xs adr links base s0 Pc s s1 _ r r Rd M1) as (Sp1 & Sp0). cbn [length app] in Sp1.
      pose proof (moves_tops xs adr s s1 [] _ r M1) as Tp.
      pose proof M1 as (_ & Q & _). cbn [length app] in Q.
      assert (Oc : outcome xs adr prog (S i + length pe) (S i + length pe + length p1) C B (A - 2) s1 h r').
      { apply (S1 adr links base s0 Pc Ev prog _ StC StL s1 r z h r' Rd1); auto; try lia.
        apply (room_mono _ _ _ Rm1). lia. }
      pose proof (runs_trans _ _ _ _ (run_pseudo _ _ s _ St0 eq_refl) E1) as E0.
      rewrite Fin.
      assert (Ad : A = 2 * Z.of_nat (length ([] ++ [z mod 65536])) + (A - 2)) by (cbn [length app]; lia).
      destruct h; cbn [outcome] in *.
      + destruct Oc as (s2 & E2 & M2).
        pose proof (moves_again lev xs adr links base s0 Pc s s1 _ r r r' s2 Rd M1 M2) as M3.
        pose proof (moves_room xs adr s s2 _ r' _ M3 Rm) as Rm3. cbn [length app] in Rm3.
        destruct (run_pop lev xs adr links base s0 Pc Ev prog _ s s2 [] _ r r' StI Rd M3 (room_mono _ _ 0 Rm3 ltac:(lia))) as (s4 & E4 & M4).
        exists s4. split; [|exact M4].
        apply (runs_trans _ _ _ _ E0), (runs_trans _ _ _ _ E2), (runs_trans _ _ _ _ (run_pseudo _ _ s2 _ StL eq_refl)), E4.
      + intros j J. destruct (Oc j J) as (s2 & E2 & X2). exists s2. split; [apply (runs_trans _ _ _ _ E0 E2)|].
        rewrite Ad. apply (effect_after xs adr links base s0 s s1 _ r r s2 (A - 2) r' Rd M1 X2). cbn [length app]. lia.
      + intros j J. destruct (Oc j J) as (s2 & E2 & X2). exists s2. split; [apply (runs_trans _ _ _ _ E0 E2)|].
        rewrite Ad. apply (effect_after xs adr links base s0 s s1 _ r r s2 (A - 2) r' Rd M1 X2). cbn [length app]. lia.
  Qed.
End Case.
