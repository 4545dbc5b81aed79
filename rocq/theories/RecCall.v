(** Calls of procedures whose bodies contain calls.  After BlockCall.v. *)

From Coq Require Import ZArith Bool List Lia ZifyBool.
From Verif Require Import Words WordLemmas State StateLemmas Opcodes EncodeModel SetModel LongModel Machine VmSpec VmProofs MemProofs MultiProofs CallProofs
  OptSpec OptUnaryStep ExprModel ExprSpec ExprRun ExprOps ExprLoad ExprProofs ExprMain StmtModel StmtSpec StmtPlain StmtRun StmtStore StmtStep
  StmtMain ActModel ActSpec ActProofs ActRun BlockModel BlockSpec BlockProofs BlockFrame BlockCall RecModel RecSpec RecMain RecSound RecBlock.
From Verif Require Import StmtSpec StmtRun StmtMain.
Import ListNotations.
Open Scope Z_scope.

(** From the call instruction on *)
Section Invoke.
  Variables (decls : list decl) (p : proc) (ps : list parm) (os ls : list var) (dstack : Z) (ini : list (var * Z)) (bts : list tok) (ss : pstmts).
  Variables (label : Z) (inner : option (list opType)) (main : list opType).
  Notation n := (pLevel p).
  Notation k := (n + 1).
  Notation res := (@None etype).
  Notation fs := (result_vars k res ps ++ value_vars k ps).
  Hypothesis Lv : 0 <= n < 255.
  Hypothesis Lb : 0 <= pLabel p < 65536.
  Hypothesis Tl : behind res ps <= 32768.
  Hypothesis Ov : forall x, In x os -> vlev x <= n.
  Hypothesis Lo : locals k dstack ls.
  Hypothesis Ds : 0 <= dstack <= 32766.
  Hypothesis On : NoDup (map fst ini).
  Hypothesis Lab : 0 < label.
  Hypothesis Hm : hd_error main = Some (mkOp oLABEL 0 label).
  Hypothesis Bs : pblock_sim decls k (xs_all os fs ls) dstack ini bts ss main.

  Lemma pinvoke prog q j env adr l vs s s1 h oadr olinks obase ro Q Kc Nw :
    stands prog q (call_op p :: release (slots ps)) ->
    stands prog j (mkOp oLABEL 0 (pLabel p) :: nested_code k label inner ++ main ++ [mkOp oRET 0 0]) ->
    all_passed env adr ps l vs ->
    Forall2 (fun p v => class_of (ptype p) <> None /\ storable (ptype p) v = true) ps vs ->
    regular s -> 0 <= sp s -> pushed s s1 (arg_words ps vs) ->
    0 <= Nw -> room s1 (5 + room_for dstack bts + Nw) -> surrounded s n h -> placed n os oadr olinks obase (with_fp s h) -> obase <= sp s / 2 -> holding os oadr s ro ->
    (forall s2, cf s2 = cf s -> (forall i, i <= sp s / 2 -> rd s2 i = rd s i) -> slink s2 (fp s2) h -> frame_level s2 (fp s2) k ->
       fp s2 = sp s + 2 + slots ps -> 0 <= fp s2 < 65536 -> 0 <= csp s2 < 65536 -> 0 <= lsp s2 < 256 ->
       placed k (xs_all os fs ls) (frame_adr k (fp s2) oadr) (links_all olinks s2) ((sp s2 + whole dstack) / 2) s2 ->
       able decls k (xs_all os fs ls) Kc Nw (frame_adr k (fp s2) oadr) (links_all olinks s2) ((sp s2 + whole dstack) / 2) s2 prog) ->
    (forall r r1, (forall x, In x os -> r x = ro x) -> arrived k ps vs r -> started ini r r1 -> exists r', pmeans_seq decls Kc ss r1 Normal r' /\ Q r') ->
    exists s' r', goes prog (q, s1) ((q + S (length (release (slots ps))))%nat, s') /\ Q r' /\ same_regs s s' /\ sp s' = sp s /\
      holding os oadr s' r' /\
      (forall w, w <= sp s / 2 -> (forall x, In x os -> ~ within oadr x w) -> rd s' w = rd s w).
  Proof.
    intros Sq Sj A Ok Rg Sp0 P1 Nw0 Rm Su Po Ob Ho Ab Me. pose proof (pushed_nil s) as P0. set (us := @nil Z) in *.
    assert (Et : exists t1, t1 = with_pc s1 (address_of prog q) /\ pc t1 = address_of prog q) by (eexists; split; reflexivity).
    destruct Et as (t1 & Et & Ept).
    assert (P1t : pushed s t1 (arg_words ps vs)) by (rewrite Et; exact P1). assert (Rmt : room t1 (5 + room_for dstack bts + Nw)) by (rewrite Et; exact Rm).
    clear P1 Rm. rename P1t into P1, Rmt into Rm.
    pose proof (arg_words_length env adr ps l vs A) as Len.
    pose proof (pushed_app _ _ _ _ _ P0 P1) as P. pose proof P as (Pr & P2 & P3 & P4).
    pose proof P0 as (_ & P02 & _). pose proof P1 as (_ & P12 & _).
    pose proof Rm as (Rm0 & Rm1 & Rm2 & Rm3). unfold room_for in Rm1.
    assert (Rm5 : room t1 5) by (eapply room_mono; [exact Rm|]; unfold room_for, whole; lia).
    pose proof Rg as (Rf & Rc & Rl & Re). pose proof Pr as (Cf & Cs & Fp & Ls & Fc).
    assert (Tb : behind res ps = 2 * Z.of_nat (length us) + slots ps) by (unfold behind, us; cbn [length]; lia).
    pose proof (slots_pos ps) as Sps. pose proof (slots_even ps) as Spe.
    destruct (Su t1 Pr P4) as ((cl & Chain) & m & I1 & I2 & I3).
    assert (Inn : innermost t1 (fp t1) n h).
    { exists m. split; [exact I1|]. split; [exact I2|]. intros j' g J1 J2 J3. destruct (I3 j' g J1 J2) as (lv & K1 & K2).
      pose proof (frame_level_unique _ _ _ _ J3 K1). lia. }
    destruct (pcal_chain t1 k (pLabel p) cl Rm5 ltac:(lia) ltac:(lia) ltac:(lia) ltac:(lia) Chain) as
      [(s2 & h' & E2 & Inn' & Sl & Fl)|(s2 & _ & _ & No)].
    2:{ exfalso. destruct (No m h I1) as (j' & g & J1 & J2 & J3).
        { replace (k - 1) with n by lia. exact I2. }
        destruct (I3 j' g J1 J2) as (lv & K1 & K2). pose proof (frame_level_unique _ _ _ _ J3 K1). lia. }
    replace (k - 1) with n in Inn' by lia.
    assert (h' = h) by (eapply innermost_unique; eauto). subst h'.
    destruct (pcal_ok t1 k (pLabel p) s2 Rm5 ltac:(lia) ltac:(lia) ltac:(lia) ltac:(lia) E2) as (B1 & B2 & B3 & B4 & B5 & B6 & B7 & B8 & _).
    destruct (call_part p ps env adr l vs s s t1 us Lv ltac:(lia) A Ok Rg Sp0 P0 P1 Rm5 s2 E2) as (_ & _ & Rcv & Same & Hf & Cf2 & _).
    set (d := whole dstack) in *.
    assert (Hd : dstack <= d <= dstack + 1 /\ d mod 2 = 0) by (subst d; unfold whole; lia).
    assert (Ff : fp s2 = sp s + 2 + behind res ps) by lia.
    assert (S2 : sp s2 = fp s2 + 8) by lia.
    assert (Rm6 : sp s2 + d < c_ssz (cf s2)) by (rewrite B5; lia).
    assert (Te : behind res ps mod 2 = 0) by (rewrite Tb; lia).
    assert (Fp' : placed k (xs_all os fs ls) (frame_adr k (fp s2) oadr) (links_all olinks s2) ((sp s2 + d) / 2) s2).
    { apply (frame_placed n (behind res ps) d dstack h obase os fs ls oadr olinks s s2); try assumption; try lia; try reflexivity.
      - apply all_front.
      - rewrite B5. exact Rm2.
      - rewrite B5. exact Rm3. }
    assert (Va : forall x, In x (xs_all os fs ls) -> exists z, contains s2 (vty x) (frame_adr k (fp s2) oadr x) z).
    { apply (frame_values n (behind res ps) d dstack h obase os fs ls oadr olinks s s2); try assumption; try lia; try reflexivity.
      - apply all_front.
      - rewrite B5. exact Rm2.
      - rewrite B5. exact Rm3. }
    assert (Ho2 : holding os oadr s2 ro).
    { intros x Hx. destruct (pl_vars _ _ _ _ _ _ Po x Hx) as (V1 & V2 & V3).
      apply (contains_bytes s s2); [congruence| |exact V3| |apply Ho, Hx]; [rewrite <- Cf2, B5; exact Rm3|].
      intros b Hb. apply rd_rdb'; [congruence|rewrite <- Cf2, B5; exact Rm3|]. apply Same.
      assert (b / 2 <= (oadr x + size_of (vty x) - 1) / 2) by (apply Z.div_le_mono; lia). lia. }
    assert (Lvs : length vs = length ps) by (clear - Ok; induction Ok; cbn [length]; congruence).
    destruct (choose (fun x z => contains s2 (vty x) (frame_adr k (fp s2) oadr x) z /\ (In x os -> z = ro x) /\
        (forall v, In x (value_vars k ps) -> In (x, v) (combine (parm_vars k ps) vs) -> z = v)) (xs_all os fs ls)) as (r & Hr).
    { intros x Hx.
      assert (Dec : In x os \/ ~ In x os).
      { destruct (existsb (var_eqb x) os) eqn:E; [left|right].
        - apply existsb_exists in E. destruct E as (w & W1 & W2). apply var_eqb_iff in W2. subst w. exact W1.
        - intros I. assert (existsb (var_eqb x) os = true) by (apply existsb_exists; exists x; split; [exact I|apply var_eqb_iff; reflexivity]). congruence. }
      assert (Dec2 : In x (value_vars k ps) \/ ~ In x (value_vars k ps)).
      { destruct (existsb (var_eqb x) (value_vars k ps)) eqn:E; [left|right].
        - apply existsb_exists in E. destruct E as (w & W1 & W2). apply var_eqb_iff in W2. subst w. exact W1.
        - intros I. assert (existsb (var_eqb x) (value_vars k ps) = true) by (apply existsb_exists; exists x; split; [exact I|apply var_eqb_iff; reflexivity]). congruence. }
      destruct Dec as [I|I].
      - exists (ro x). specialize (Ov x I) as Ox. split; [|split; [reflexivity|]].
        + unfold frame_adr. replace (vlev x =? k) with false by lia. apply Ho2, I.
        + intros v J _. exfalso. destruct (fr_at _ _ _ (value_front k ps) x J). lia.
      - destruct Dec2 as [J|J].
        + destruct (value_parm k ps vs Lvs x J) as (v & V). exists v. split; [|split; [tauto|]].
          * destruct (fr_at _ _ _ (value_front k ps) x J) as (J1 & J2 & J3 & J4). pose proof (sizes_small (vty x)).
            unfold frame_adr. replace (vlev x =? k) with true by lia. replace (voff x <? 0) with true by lia.
            apply (vars_received k s2 ps vs); try lia; assumption.
          * intros w _ W. eapply parm_once; eauto.
        + destruct (Va x Hx) as (z & Hz). exists z. tauto. }
    assert (Sta : started ini r (assigned ini r)).
    { split.
      - intros x z I. destruct (assigned_in ini r x) as (w & W1 & W2); [apply (in_map fst) in I; exact I|]. rewrite W2. eapply once_fun; eauto.
      - intros x I. apply assigned_other, I. }
    destruct (Me r (assigned ini r)) as (r' & Mn & HQ).
    { intros x I. destruct (Hr x) as (_ & K & _); [unfold xs_all; apply in_or_app; auto|apply K, I]. }
    { apply arrived_of. intros x v I J. destruct (Hr x) as (_ & _ & K); [|apply K; assumption]. unfold xs_all. rewrite !in_app_iff. tauto. }
    { exact Sta. }
    apply stands_cons in Sj. destruct Sj as (Sj0 & Sj). apply stands_app in Sj. destruct Sj as (Sj1 & Sj).
    set (jm := (S j + length (nested_code k label inner))%nat) in *.
    apply stands_app in Sj. destruct Sj as (Sj2 & Sj3). apply stands_cons in Sj3. destruct Sj3 as (Sj3 & _).
    apply stands_cons in Sq. destruct Sq as (Sq0 & Sq1).
    (* to the label of the block *)
    assert (Jl : labelled prog label jm).
    { unfold labelled. specialize (Sj2 0%nat (mkOp oLABEL 0 label)). rewrite Nat.add_0_r in Sj2. apply Sj2.
      destruct main as [|m0 main']; [discriminate|]. cbn in Hm |- *. exact Hm. }
    assert (X : exists s3, runs prog (S j, s2) (jm, s3) /\ same_regs s2 s3 /\ sp s3 = sp s2 /\ forall i, rd s3 i = rd s2 i).
    { unfold jm, nested_code in *. destruct inner as [code|].
      - replace ((0 <? label) && (0 <? k)) with true in * by lia. cbn [app] in Sj1. apply stands_cons in Sj1. destruct Sj1 as (Sj1 & _).
        destruct (jump_always s2 label) as (s3 & F3 & (G1 & G2 & _ & G4)). exists s3. split; [|split; [exact G1|split; [cbn [length] in G2; lia|]]].
        + apply runs_one. apply (step_jumps prog (S j) s2 _ label s3 _ Sj1 eq_refl F3). exact Jl.
        + intros i. apply G4. cbn [length]. lia.
      - cbn [length]. rewrite Nat.add_0_r. exists s2. split; [apply runs_refl|]. split; [apply same_regs_refl|]. split; reflexivity. }
    destruct X as (s3 & E3 & G3 & Sp3 & M3). pose proof G3 as (Cf3 & _).
    assert (Ab2 : able decls k (xs_all os fs ls) Kc Nw (frame_adr k (fp s2) oadr) (links_all olinks s2) ((sp s2 + d) / 2) s2 prog).
    { apply Ab; auto; try congruence; try lia. }
    assert (Ev2 : c_ssz (cf s2) mod 2 = 0) by (rewrite B5; exact Rm3).
    destruct (Bs Kc Nw Nw0 (frame_adr k (fp s2) oadr) (links_all olinks s2) ((sp s2 + d) / 2) s2 Fp' Ev2 prog Ab2 jm Sj2 s3 r (assigned ini r) r') as (s4 & E4 & G4 & Sp4 & H4 & M4).
    { exact G3. }
    { intros i _. apply M3. }
    { rewrite Sp3. fold d. lia. }
    { intros x Hx. apply (contains_rd s2 s3); auto. apply (Hr x Hx). }
    { unfold roomy, room. rewrite Sp3, Cf3, B5, B2. unfold room_for. fold d. lia. }
    { exact Sta. }
    { exact Mn. }
    rewrite Z.add_0_r in Sp4. pose proof G4 as (Cf4 & _).
    assert (Hdr : forall i, fp s2 / 2 <= i < fp s2 / 2 + 5 -> rd s4 i = rd s2 i).
    { intros i Hi. rewrite M4, M3; [reflexivity|lia|]. apply (pl_links _ _ _ _ _ _ Fp' i). right. exact Hi. }
    destruct (call_return t1 k (pLabel p) s2 s4 0 0 Rm5 ltac:(lia) ltac:(lia) ltac:(lia) ltac:(lia) E2) as (s5 & E5 & C1 & C2 & C3 & C4 & C5 & C6 & C7).
    { congruence. }
    { lia. }
    { exact Hdr. }
    assert (Y : exists s6, runs prog (S q, s5) ((S q + length (release (slots ps)))%nat, s6) /\ same_regs s5 s6 /\ sp s6 = sp s5 - slots ps /\ forall i, rd s6 i = rd s5 i).
    { unfold release in *. destruct (slots ps =? 0) eqn:Z0.
      - exists s5. cbn [length]. rewrite Nat.add_0_r. split; [apply runs_refl|]. split; [apply same_regs_refl|]. split; [lia|reflexivity].
      - apply stands_cons in Sq1. destruct Sq1 as (Sq1 & _). cbn [length]. rewrite Nat.add_1_r.
        destruct (run_inds prog (S q) (- slots ps) s5 Sq1) as (s6 & Z1 & Z2 & Z3 & Z4); try lia.
        { rewrite C6. lia. }
        { rewrite C6. lia. }
        exists s6. split; [exact Z1|]. split; [exact Z2|]. split; [lia|exact Z4]. }
    destruct Y as (s6 & E6 & G6 & Sp6 & M6).
    assert (Rd64 : forall i, rd s6 i = rd s4 i) by (intros i; rewrite M6; apply C7).
    assert (Cf64 : cf s6 = cf s4) by (destruct G6 as (-> & _); congruence).
    assert (Ev4 : c_ssz (cf s4) mod 2 = 0) by (rewrite Cf4, Cf3; exact Ev2).
    exists s6, r'. split; [|split; [exact HQ|split; [|split; [lia|split]]]].
    - intros ks. cbn [fst snd]. apply (cruns_trans _ _ (j, S q :: ks, s2)).
      { apply cruns_one. unfold call_op in Sq0. rewrite Et in E2. apply (cstep_call prog q s1 k (pLabel p) s2 j ks Sq0 E2). exact Sj0. }
      apply (cruns_trans _ _ (S j, S q :: ks, s2)).
      { apply cruns_one. apply cstep_step. apply (step_pseudo _ _ _ _ Sj0 eq_refl). }
      apply (cruns_trans _ _ (jm, S q :: ks, s3)); [apply (cruns_runs prog (S q :: ks) _ _ E3)|].
      eapply cruns_trans; [apply (E4 (S q :: ks))|]. cbn [fst snd].
      apply (cruns_trans _ _ (S q, ks, s5)).
      { apply cruns_one. apply (cstep_return prog _ s4 0 0 s5 (S q) ks Sj3 E5). rewrite C1, Ept. unfold call_op in Sq0. rewrite (address_call prog q _ _ Sq0). reflexivity. }
      replace (q + S (length (release (slots ps))))%nat with (S q + length (release (slots ps)))%nat by lia.
      apply (cruns_runs prog ks _ _ E6).
    - destruct G6 as (K1 & K2 & K3 & K4 & K5). pose proof (ret_fch _ _ _ _ E5) as K6. destruct G4 as (_ & _ & _ & _ & K7). destruct G3 as (_ & _ & _ & _ & K8).
      unfold same_regs. repeat split; congruence.
    - intros x Hx. apply (contains_rd s4 s6); auto.
      assert (Hx' : In x (xs_all os fs ls)) by (unfold xs_all; apply in_or_app; auto).
      specialize (H4 x Hx'). specialize (Ov x Hx). unfold frame_adr in H4. replace (vlev x =? k) with false in H4 by lia. exact H4.
    - intros w Hw NW. rewrite Rd64, M4, M3; [apply Same, Hw|lia|].
      intros x Hx. unfold xs_all in Hx. apply in_app_or in Hx. destruct Hx as [Hx|Hx]; [|apply in_app_or in Hx; destruct Hx as [Hx|Hx]]; unfold within.
      + specialize (Ov x Hx). unfold frame_adr. replace (vlev x =? k) with false by lia. apply (NW x Hx).
      + destruct (fr_at _ _ _ (all_front k res ps) x Hx) as (J1 & J2 & J3 & J4). pose proof (sizes_small (vty x)).
        unfold frame_adr. replace (vlev x =? k) with true by lia. replace (voff x <? 0) with true by lia. lia.
      + destruct (lo_at _ _ _ Lo x Hx) as (J1 & J2 & J3 & J4).
        unfold frame_adr. replace (vlev x =? k) with true by lia. replace (voff x <? 0) with false by lia. lia.
  Qed.
End Invoke.
