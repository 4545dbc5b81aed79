(** Calls of procedures: the code of the call and of the procedure together. *)

From Coq Require Import ZArith Bool List Lia ZifyBool.
From Verif Require Import Words WordLemmas State StateLemmas Opcodes EncodeModel SetModel LongModel Machine VmSpec VmProofs MemProofs MultiProofs CallProofs
  OptSpec OptUnaryStep ExprModel ExprSpec ExprRun ExprOps ExprLoad ExprProofs ExprMain StmtModel StmtSpec StmtPlain StmtRun StmtStore StmtStep
  StmtMain ActModel ActSpec ActProofs ActRun BlockModel BlockSpec BlockProofs BlockFrame.
From Verif Require Import StmtSpec.
From Verif Require FinalSpec EncodeSpec.
Import ListNotations.
Open Scope Z_scope.

Lemma cruns_trans prog a b c : cruns prog a b -> cruns prog b c -> cruns prog a c.
Proof. induction 1; intros; [assumption|]. econstructor; eauto. Qed.
Lemma firstn_next {A} (l : list A) i p : nth_error l i = Some p -> firstn (S i) l = firstn i l ++ [p].
Proof.
  revert l. induction i as [|i IH]; intros [|x l] H; try discriminate H; cbn in H |- *; [congruence|]. rewrite <- (IH l H). reflexivity.
Qed.
Lemma code_size_app a b : FinalSpec.code_size (a ++ b) = FinalSpec.code_size a + FinalSpec.code_size b.
Proof. unfold FinalSpec.code_size. induction a as [|x a IH]; cbn [app fold_right]; lia. Qed.
Lemma address_next prog i p : nth_error prog i = Some p ->
  address_of prog (S i) = address_of prog i + if FinalSpec.marker p then 0 else EncodeSpec.insn_length (op p).
Proof.
  intros H. unfold address_of. rewrite (firstn_next prog i _ H). unfold FinalSpec.instructions. rewrite filter_app, code_size_app. f_equal.
  cbn [filter]. destruct (FinalSpec.marker p); cbn; lia.
Qed.
Lemma address_call prog i lv l : nth_error prog i = Some (mkOp oPCAL lv l) -> address_of prog (S i) = address_of prog i + 4.
Proof. intros H. rewrite (address_next _ _ _ H). reflexivity. Qed.
Lemma cruns_one prog a b : cstep prog a b -> cruns prog a b.
Proof. intros H. econstructor; [exact H|constructor]. Qed.
Lemma cruns_runs prog ks a b : runs prog a b -> cruns prog (fst a, ks, snd a) (fst b, ks, snd b).
Proof.
  induction 1 as [|[i s] [j t] c S R IH]; [constructor|]. cbn [fst snd] in *. econstructor; [apply cstep_step; exact S|exact IH].
Qed.

(** ** Arguments: their code is plain *)

Lemma adds_expect k e c : adds c (StmtModel.expect k e c).
Proof. unfold StmtModel.expect. destruct (token c =? k); auto with adds. Qed.
Lemma pointer_adds n : forall c t c', pointer_factor n c = Done t c' -> adds c c'.
Proof.
  induction n as [|n IH]; intros c t c' H; cbn [pointer_factor] in H; [discriminate|].
  destruct (map_type (token c)).
  - injection H as _ <-. eapply adds_trans; [|apply adds_get]. apply adds_ref; reflexivity.
  - destruct (existsb _ _); [discriminate|]. destruct (token c =? tLPAREN).
    + inv_done H. injection H as _ <-. eapply adds_trans; [apply adds_get|]. eapply adds_trans; [eapply IH; eauto|apply adds_expect].
    + injection H as _ <-. apply adds_error.
Qed.
Lemma actual_adds n f c z c' : actual n f c = LDone z c' -> adds c c'.
Proof.
  assert (X : forall y r, of_expr y r = LDone z c' -> exists t, r = Done t c') by (intros y [t d| |] H; try discriminate; injection H as _ <-; eauto).
  unfold actual. destruct (map_type (fKind f)).
  - intros H. apply X in H. destruct H as (t & H). eapply expression_adds; eauto.
  - destruct (fKind f =? ArrModel.sSUBRANGE); [intros H; apply X in H; destruct H as (t & H); eapply expression_adds; eauto|].
    destruct (fKind f =? sVAR_PARM).
    + destruct (fType f) as [vt|]; [|intros H; injection H as _ <-; apply adds_error].
      destruct (if vt =? ArrModel.sSUBRANGE then Some xInteger else map_type vt).
      * intros H. apply X in H. destruct H as (t & H). unfold var_parameter in H. inv_done H. injection H as _ <-.
        eapply adds_trans; [eapply pointer_adds; eauto|apply adds_error_if].
      * destruct (existsb _ _); [discriminate|]. intros H; injection H as _ <-; apply adds_error.
    + destruct (existsb _ _); [discriminate|]. intros H; injection H as _ <-; apply adds_error.
Qed.
Lemma loop_adds n fs : forall y c z c', actual_loop n fs y c = LDone z c' -> adds c c'.
Proof.
  induction fs as [|f fs IH]; intros y c z c' H; cbn [actual_loop] in H; [injection H as _ <-; apply adds_refl|].
  destruct (actual n f c) as [w d| |] eqn:E; try discriminate. apply actual_adds in E. eapply adds_trans; [exact E|].
  destruct fs as [|g fs]; [apply (IH _ _ _ _ H)|]. eapply adds_trans; [apply (adds_expect tCOMMA eCOMMA)|apply (IH _ _ _ _ H)].
Qed.
Lemma list_adds n fs c z c' : actual_list n fs c = LDone z c' -> adds c c'.
Proof.
  unfold actual_list. set (c1 := if token c =? tLPAREN then getToken c else c).
  assert (A1 : adds c c1) by (unfold c1; destruct (token c =? tLPAREN); auto with adds).
  set (c2 := match fs with [] => c1 | _ => _ end).
  assert (A2 : adds c1 c2) by (unfold c2; destruct fs; auto with adds).
  destruct (actual_loop n fs 0 c2) as [w d| |] eqn:E; try discriminate. apply loop_adds in E. intros H. injection H as _ <-.
  eapply adds_trans; [exact A1|]. eapply adds_trans; [exact A2|]. eapply adds_trans; [exact E|].
  destruct (token c =? tLPAREN); [apply adds_expect|apply adds_refl].
Qed.

Lemma list_plain lev ps ts l fs : glist lev ps ts l -> Forall2 described fs ps -> exists code,
    (forall c rest n, toks c = ts ++ rest -> (ts = [] -> tk (hd eoftok rest) <> tLPAREN) -> g_level c = lev ->
       (4 * length (toks c) + 4 <= n)%nat ->
       actual_list n fs c = LDone (slots ps) (after c rest code)) /\
    Forall plain code /\
    forall env adr vs, all_passed env adr ps l vs -> forall s, room s (2 * Z.of_nat (length ts)) -> Forall (provided lev s env adr) l ->
      exists s1, exec_list code s = Ok s1 /\ pushed s s1 (arg_words ps vs).
Proof.
  intros G D. destruct (list_after lev ps ts l G fs D) as (code & C & R). exists code. split; [exact C|]. split; [|exact R].
  set (c := mkComp (ts ++ [mkTok 59 0 0 nosym 0]) [] [] 0 lev 0 0 0).
  pose proof (C c [mkTok 59 0 0 nosym 0] (4 * length (toks c) + 4)%nat eq_refl ltac:(intros _; cbn; discriminate) eq_refl ltac:(lia)) as X.
  apply list_adds in X. destruct X as [(ps' & E & F) _ _ _ _ _]. cbn in E. subst. exact F.
Qed.

(** ** The call *)

Lemma pop_fch s w s' : pop s = Some (w, s') -> fch s' = fch s.
Proof. unfold pop. destruct (rd s (sp s / 2)); intros H; [|discriminate]. injection H as _ <-. reflexivity. Qed.
Lemma ret_fch s a b s' : exec_insn s (mkOp oRET a b) = Ok s' -> fch s' = fch s.
Proof.
  change (exec_insn s (mkOp oRET a b)) with (exec_ret s). unfold exec_ret. intros H.
  destruct (pop s) as [[w s1]|] eqn:E1; cbn [bindo] in H; [|discriminate]. apply pop_fch in E1.
  destruct (pop (with_lsp s1 (w / 256))) as [[v s2]|] eqn:E2; cbn [bindo] in H; [|discriminate]. apply pop_fch in E2.
  destruct (pop (with_csp s2 v)) as [[u s3]|] eqn:E3; cbn [bindo] in H; [|discriminate]. apply pop_fch in E3.
  destruct (pop (with_pc s3 u)) as [[x s4]|] eqn:E4; cbn [bindo] in H; [|discriminate]. apply pop_fch in E4.
  injection H as <-. cbn [fch with_lsp with_csp with_pc with_fp with_sp discard] in *. congruence.
Qed.

Lemma vars_received k s2 ps vs : 0 < k -> slots ps <= 32768 -> slots ps <= fp s2 < 65536 -> received k s2 ps vs ->
  forall (x : var) (v : Z), In (x, v) (combine (parm_vars k ps) vs) -> contains s2 (vty x) (fp s2 + voff x) v.
Proof.
  intros K. revert vs. induction ps as [|p ps IH]; intros vs Sl F R x v I; [destruct I|].
  unfold received in R. cbn [parm_vars] in *. inversion R as [|? w ? vs' L R']; subst. cbn [combine] in I.
  pose proof (slots_cons p ps). pose proof (slots_pos ps). assert (2 <= slot p) by (destruct p as [[]|]; cbn; lia).
  destruct I as [I|I].
  - injection I as <- <-. unfold parm_var in *. cbn [vty voff] in *. apply (found k k); try lia. exact L.
  - apply (IH vs'); try lia; assumption.
Qed.
Lemma parm_vars_at k ps x : In x (parm_vars k ps) -> vlev x = k /\ - slots ps <= voff x < 0.
Proof.
  induction ps as [|p ps IH]; [intros []|]. cbn [parm_vars In]. rewrite slots_cons. pose proof (slots_pos ps).
  assert (2 <= slot p) by (destruct p as [[]|]; cbn; lia). intros [<-|I].
  - unfold parm_var. cbn [vlev voff]. rewrite slots_cons. lia.
  - specialize (IH I). lia.
Qed.
Lemma parm_once k ps : forall (vs : list Z) (x : var) v w, In (x, v) (combine (parm_vars k ps) vs) -> In (x, w) (combine (parm_vars k ps) vs) -> v = w.
Proof.
  induction ps as [|p ps IH]; intros [|u vs] x v w A B; cbn [parm_vars combine In] in A, B; try (destruct A; fail).
  assert (X : forall y, ~ In (parm_var k p ps, y) (combine (parm_vars k ps) vs)).
  { intros y H. apply in_combine_l in H. apply parm_vars_at in H. unfold parm_var in H. cbn [voff] in H. rewrite slots_cons in H.
    assert (2 <= slot p) by (destruct p as [[]|]; cbn; lia). lia. }
  destruct A as [A|A], B as [B|B].
  - congruence.
  - injection A as <- <-. destruct (X w B).
  - injection B as <- <-. destruct (X v A).
  - eapply IH; eauto.
Qed.
Lemma value_parm k ps : forall vs : list Z, length vs = length ps -> forall x, In x (value_vars k ps) -> exists v, In (x, v) (combine (parm_vars k ps) vs).
Proof.
  induction ps as [|p ps IH]; intros [|u vs] L x I; try discriminate; [destruct I|]. cbn [value_vars parm_vars combine] in *.
  assert (L' : length vs = length ps) by (cbn in L; lia).
  destruct (by_value p).
  - destruct I as [<-|I]; [exists u; left; reflexivity|]. destruct (IH vs L' x I) as (v & V). exists v. right. exact V.
  - destruct (IH vs L' x I) as (v & V). exists v. right. exact V.
Qed.
Lemma arrived_of k ps : forall vs r, (forall (x : var) (v : Z), In x (value_vars k ps) -> In (x, v) (combine (parm_vars k ps) vs) -> r x = v) -> arrived k ps vs r.
Proof.
  induction ps as [|p ps IH]; intros [|u vs] r H; cbn [arrived]; auto. cbn [value_vars parm_vars combine] in H. split.
  - intros B. apply H; [rewrite B; left; reflexivity|left; reflexivity].
  - apply IH. intros x v I J. apply H; [destruct (by_value p); [right|]; exact I|right; exact J].
Qed.

Lemma contains_rd s s' t a z : cf s' = cf s -> (forall i, rd s' i = rd s i) -> c_ssz (cf s) mod 2 = 0 -> contains s t a z -> contains s' t a z.
Proof.
  intros C R Ev H. assert (B : forall b, rdb s' b = rdb s b) by (intros b; apply rd_rdb'; [exact C|exact Ev|apply R]).
  assert (X : forall w b v, element s w b v -> element s' w b v).
  { intros w b v. destruct w; cbn [element]; rewrite ?R, ?B; auto. }
  destruct t; cbn [contains] in *; rewrite ?R; auto;
    destruct H as (v & H1 & H2); exists v; split; auto.
Qed.

(** From the call instruction on; [us] is the container. *)
Section Invoke.
  Variables (p : proc) (res : option etype) (ps : list parm) (os ls : list var) (dstack : Z) (ini : list (var * Z)) (bts : list tok) (ss : stmts).
  Variables (label : Z) (inner : option (list opType)) (main : list opType).
  Notation n := (pLevel p).
  Notation k := (n + 1).
  Notation fs := (result_vars k res ps ++ value_vars k ps).
  Hypothesis Lv : 0 <= n < 255.
  Hypothesis Lb : 0 <= pLabel p < 65536.
  Hypothesis Tl : behind res ps <= 32768.
  Hypothesis Ov : forall x, In x os -> vlev x <= n.
  Hypothesis Lo : locals k dstack ls.
  Hypothesis Ds : 0 <= dstack <= 32766.
  Hypothesis On : NoDup (map fst ini).
  Hypothesis Lab : 0 < label.
  Hypothesis Hm : hd_error main = Some (mkOp oLABEL 0 label).
  Hypothesis Bs : block_sim k (xs_all os fs ls) dstack ini bts ss main.

  Lemma invoke prog q j env adr l vs s s0 s1 us ks h oadr olinks obase ro Q :
    stands prog q (call_op p :: release (slots ps)) ->
    stands prog j (mkOp oLABEL 0 (pLabel p) :: nested_code k label inner ++ main ++ [mkOp oRET 0 0]) ->
    all_passed env adr ps l vs ->
    Forall2 (fun p v => class_of (ptype p) <> None /\ storable (ptype p) v = true) ps vs ->
    regular s -> 0 <= sp s -> pushed s s0 us -> 2 * Z.of_nat (length us) = match res with None => 0 | Some t => slot (ByValue t) end ->
    pushed s0 s1 (arg_words ps vs) ->
    room s1 (5 + room_for dstack bts) -> surrounded s n h -> placed n os oadr olinks obase (with_fp s h) -> obase <= sp s / 2 -> holding os oadr s ro ->
    (forall r r1, (forall x, In x os -> r x = ro x) -> arrived k ps vs r -> started ini r r1 -> exists r', means_seq ss r1 Normal r' /\ Q r') ->
    exists s' r', cruns prog (q, ks, s1) ((q + S (length (release (slots ps))))%nat, ks, s') /\ Q r' /\ same_regs s s' /\ sp s' = sp s0 /\
      holding os oadr s' r' /\
      (forall w, w <= sp s / 2 -> (forall x, In x os -> ~ within oadr x w) -> rd s' w = rd s w) /\
      match res with None => True | Some t => contains s' t (sp s + 2) (r' (result_var k t ps)) end.
  Proof.
    intros Sq Sj A Ok Rg Sp0 P0 Lu P1 Rm Su Po Ob Ho Me.
    assert (Et : exists t1, t1 = with_pc s1 (address_of prog q) /\ pc t1 = address_of prog q) by (eexists; split; reflexivity).
    destruct Et as (t1 & Et & Ept).
    assert (P1t : pushed s0 t1 (arg_words ps vs)) by (rewrite Et; exact P1). assert (Rmt : room t1 (5 + room_for dstack bts)) by (rewrite Et; exact Rm).
    clear P1 Rm. rename P1t into P1, Rmt into Rm.
    pose proof (arg_words_length env adr ps l vs A) as Len.
    pose proof (pushed_app _ _ _ _ _ P0 P1) as P. pose proof P as (Pr & P2 & P3 & P4).
    pose proof P0 as (_ & P02 & _). pose proof P1 as (_ & P12 & _).
    pose proof Rm as (Rm0 & Rm1 & Rm2 & Rm3). unfold room_for in Rm1.
    assert (Rm5 : room t1 5) by (eapply room_mono; [exact Rm|]; unfold room_for, whole; lia).
    pose proof Rg as (Rf & Rc & Rl & Re). pose proof Pr as (Cf & Cs & Fp & Ls & Fc).
    assert (Tb : behind res ps = 2 * Z.of_nat (length us) + slots ps).
    { unfold behind. destruct res; [rewrite slots_cons|]; lia. }
    pose proof (slots_pos ps) as Sps. pose proof (slots_even ps) as Spe.
    destruct (Su t1 Pr P4) as ((cl & Chain) & m & I1 & I2 & I3).
    assert (Inn : innermost t1 (fp t1) n h).
    { exists m. split; [exact I1|]. split; [exact I2|]. intros j' g J1 J2 J3. destruct (I3 j' g J1 J2) as (lv & K1 & K2).
      pose proof (frame_level_unique _ _ _ _ J3 K1). lia. }
    destruct (pcal_chain t1 k (pLabel p) cl Rm5 ltac:(lia) ltac:(lia) ltac:(lia) ltac:(lia) Chain) as
      [(s2 & h' & E2 & Inn' & Sl & Fl)|(s2 & _ & _ & No)].
    2:{ exfalso. destruct (No m h I1) as (j' & g & J1 & J2 & J3).
        { replace (k - 1) with n by lia. exact I2. }
        destruct (I3 j' g J1 J2) as (lv & K1 & K2). pose proof (frame_level_unique _ _ _ _ J3 K1). lia. }
    replace (k - 1) with n in Inn' by lia.
    assert (h' = h) by (eapply innermost_unique; eauto). subst h'.
    destruct (pcal_ok t1 k (pLabel p) s2 Rm5 ltac:(lia) ltac:(lia) ltac:(lia) ltac:(lia) E2) as (B1 & B2 & B3 & B4 & B5 & B6 & B7 & B8 & _).
    destruct (call_part p ps env adr l vs s s0 t1 us Lv ltac:(lia) A Ok Rg Sp0 P0 P1 Rm5 s2 E2) as (_ & _ & Rcv & Same & Hf & Cf2 & _).
    set (d := whole dstack) in *.
    assert (Hd : dstack <= d <= dstack + 1 /\ d mod 2 = 0) by (subst d; unfold whole; lia).
    assert (Ff : fp s2 = sp s + 2 + behind res ps) by lia.
    assert (S2 : sp s2 = fp s2 + 8) by lia.
    assert (Rm6 : sp s2 + d < c_ssz (cf s2)) by (rewrite B5; lia).
    assert (Te : behind res ps mod 2 = 0) by (rewrite Tb; lia).
    assert (Fp' : placed k (xs_all os fs ls) (frame_adr k (fp s2) oadr) (links_all olinks s2) ((sp s2 + d) / 2) s2).
    { apply (frame_placed n (behind res ps) d dstack h obase os fs ls oadr olinks s s2); try assumption; try lia; try reflexivity.
      - apply all_front.
      - rewrite B5. exact Rm2.
      - rewrite B5. exact Rm3. }
    assert (Va : forall x, In x (xs_all os fs ls) -> exists z, contains s2 (vty x) (frame_adr k (fp s2) oadr x) z).
    { apply (frame_values n (behind res ps) d dstack h obase os fs ls oadr olinks s s2); try assumption; try lia; try reflexivity.
      - apply all_front.
      - rewrite B5. exact Rm2.
      - rewrite B5. exact Rm3. }
    assert (Ho2 : holding os oadr s2 ro).
    { intros x Hx. destruct (pl_vars _ _ _ _ _ _ Po x Hx) as (V1 & V2 & V3).
      apply (contains_bytes s s2); [congruence| |exact V3| |apply Ho, Hx]; [rewrite <- Cf2, B5; exact Rm3|].
      intros b Hb. apply rd_rdb'; [congruence|rewrite <- Cf2, B5; exact Rm3|]. apply Same.
      assert (b / 2 <= (oadr x + size_of (vty x) - 1) / 2) by (apply Z.div_le_mono; lia). lia. }
    assert (Lvs : length vs = length ps) by (clear - Ok; induction Ok; cbn [length]; congruence).
    destruct (choose (fun x z => contains s2 (vty x) (frame_adr k (fp s2) oadr x) z /\ (In x os -> z = ro x) /\
        (forall v, In x (value_vars k ps) -> In (x, v) (combine (parm_vars k ps) vs) -> z = v)) (xs_all os fs ls)) as (r & Hr).
    { intros x Hx.
      assert (Dec : In x os \/ ~ In x os).
      { destruct (existsb (var_eqb x) os) eqn:E; [left|right].
        - apply existsb_exists in E. destruct E as (w & W1 & W2). apply var_eqb_iff in W2. subst w. exact W1.
        - intros I. assert (existsb (var_eqb x) os = true) by (apply existsb_exists; exists x; split; [exact I|apply var_eqb_iff; reflexivity]). congruence. }
      assert (Dec2 : In x (value_vars k ps) \/ ~ In x (value_vars k ps)).
      { destruct (existsb (var_eqb x) (value_vars k ps)) eqn:E; [left|right].
        - apply existsb_exists in E. destruct E as (w & W1 & W2). apply var_eqb_iff in W2. subst w. exact W1.
        - intros I. assert (existsb (var_eqb x) (value_vars k ps) = true) by (apply existsb_exists; exists x; split; [exact I|apply var_eqb_iff; reflexivity]). congruence. }
      destruct Dec as [I|I].
      - exists (ro x). specialize (Ov x I) as Ox. split; [|split; [reflexivity|]].
        + unfold frame_adr. replace (vlev x =? k) with false by lia. apply Ho2, I.
        + intros v J _. exfalso. destruct (fr_at _ _ _ (value_front k ps) x J). lia.
      - destruct Dec2 as [J|J].
        + destruct (value_parm k ps vs Lvs x J) as (v & V). exists v. split; [|split; [tauto|]].
          * destruct (fr_at _ _ _ (value_front k ps) x J) as (J1 & J2 & J3 & J4). pose proof (sizes_small (vty x)).
            unfold frame_adr. replace (vlev x =? k) with true by lia. replace (voff x <? 0) with true by lia.
            apply (vars_received k s2 ps vs); try lia; assumption.
          * intros w _ W. eapply parm_once; eauto.
        + destruct (Va x Hx) as (z & Hz). exists z. tauto. }
    assert (Sta : started ini r (assigned ini r)).
    { split.
      - intros x z I. destruct (assigned_in ini r x) as (w & W1 & W2); [apply (in_map fst) in I; exact I|]. rewrite W2. eapply once_fun; eauto.
      - intros x I. apply assigned_other, I. }
    destruct (Me r (assigned ini r)) as (r' & Mn & HQ).
    { intros x I. destruct (Hr x) as (_ & K & _); [unfold xs_all; apply in_or_app; auto|apply K, I]. }
    { apply arrived_of. intros x v I J. destruct (Hr x) as (_ & _ & K); [|apply K; assumption]. unfold xs_all. rewrite !in_app_iff. tauto. }
    { exact Sta. }
    apply stands_cons in Sj. destruct Sj as (Sj0 & Sj). apply stands_app in Sj. destruct Sj as (Sj1 & Sj).
    set (jm := (S j + length (nested_code k label inner))%nat) in *.
    apply stands_app in Sj. destruct Sj as (Sj2 & Sj3). apply stands_cons in Sj3. destruct Sj3 as (Sj3 & _).
    apply stands_cons in Sq. destruct Sq as (Sq0 & Sq1).
    (* to the label of the block *)
    assert (Jl : labelled prog label jm).
    { unfold labelled. specialize (Sj2 0%nat (mkOp oLABEL 0 label)). rewrite Nat.add_0_r in Sj2. apply Sj2.
      destruct main as [|m0 main']; [discriminate|]. cbn in Hm |- *. exact Hm. }
    assert (X : exists s3, runs prog (S j, s2) (jm, s3) /\ same_regs s2 s3 /\ sp s3 = sp s2 /\ forall i, rd s3 i = rd s2 i).
    { unfold jm, nested_code in *. destruct inner as [code|].
      - replace ((0 <? label) && (0 <? k)) with true in * by lia. cbn [app] in Sj1. apply stands_cons in Sj1. destruct Sj1 as (Sj1 & _).
        destruct (jump_always s2 label) as (s3 & F3 & (G1 & G2 & _ & G4)). exists s3. split; [|split; [exact G1|split; [cbn [length] in G2; lia|]]].
        + apply runs_one. apply (step_jumps prog (S j) s2 _ label s3 _ Sj1 eq_refl F3). exact Jl.
        + intros i. apply G4. cbn [length]. lia.
      - cbn [length]. rewrite Nat.add_0_r. exists s2. split; [apply runs_refl|]. split; [apply same_regs_refl|]. split; reflexivity. }
    destruct X as (s3 & E3 & G3 & Sp3 & M3). pose proof G3 as (Cf3 & _).
    assert (Ev2 : c_ssz (cf s2) mod 2 = 0) by (rewrite B5; exact Rm3).
    destruct (Bs (frame_adr k (fp s2) oadr) (links_all olinks s2) ((sp s2 + d) / 2) s2 Fp' Ev2 prog jm Sj2 s3 r (assigned ini r) r') as (s4 & E4 & G4 & Sp4 & H4 & M4).
    { exact G3. }
    { intros i _. apply M3. }
    { rewrite Sp3. fold d. lia. }
    { intros x Hx. apply (contains_rd s2 s3); auto. apply (Hr x Hx). }
    { unfold room. rewrite Sp3, Cf3, B5, B2. unfold room_for. fold d. lia. }
    { exact Sta. }
    { exact Mn. }
    rewrite Z.add_0_r in Sp4. pose proof G4 as (Cf4 & _).
    assert (Hdr : forall i, fp s2 / 2 <= i < fp s2 / 2 + 5 -> rd s4 i = rd s2 i).
    { intros i Hi. rewrite M4, M3; [reflexivity|lia|]. apply (pl_links _ _ _ _ _ _ Fp' i). right. exact Hi. }
    destruct (call_return t1 k (pLabel p) s2 s4 0 0 Rm5 ltac:(lia) ltac:(lia) ltac:(lia) ltac:(lia) E2) as (s5 & E5 & C1 & C2 & C3 & C4 & C5 & C6 & C7).
    { congruence. }
    { lia. }
    { exact Hdr. }
    assert (Y : exists s6, runs prog (S q, s5) ((S q + length (release (slots ps)))%nat, s6) /\ same_regs s5 s6 /\ sp s6 = sp s5 - slots ps /\ forall i, rd s6 i = rd s5 i).
    { unfold release in *. destruct (slots ps =? 0) eqn:Z0.
      - exists s5. cbn [length]. rewrite Nat.add_0_r. split; [apply runs_refl|]. split; [apply same_regs_refl|]. split; [lia|reflexivity].
      - apply stands_cons in Sq1. destruct Sq1 as (Sq1 & _). cbn [length]. rewrite Nat.add_1_r.
        destruct (run_inds prog (S q) (- slots ps) s5 Sq1) as (s6 & Z1 & Z2 & Z3 & Z4); try lia.
        { rewrite C6. lia. }
        { rewrite C6. lia. }
        exists s6. split; [exact Z1|]. split; [exact Z2|]. split; [lia|exact Z4]. }
    destruct Y as (s6 & E6 & G6 & Sp6 & M6).
    assert (Rd64 : forall i, rd s6 i = rd s4 i) by (intros i; rewrite M6; apply C7).
    assert (Cf64 : cf s6 = cf s4) by (destruct G6 as (-> & _); congruence).
    assert (Ev4 : c_ssz (cf s4) mod 2 = 0) by (rewrite Cf4, Cf3; exact Ev2).
    exists s6, r'. split; [|split; [exact HQ|split; [|split; [lia|split; [|split]]]]].
    - apply (cruns_trans _ _ (j, S q :: ks, s2)).
      { apply cruns_one. unfold call_op in Sq0. rewrite Et in E2. apply (cstep_call prog q s1 k (pLabel p) s2 j ks Sq0 E2). exact Sj0. }
      apply (cruns_trans _ _ (S j, S q :: ks, s2)).
      { apply cruns_one. apply cstep_step. apply (step_pseudo _ _ _ _ Sj0 eq_refl). }
      apply (cruns_trans _ _ (jm, S q :: ks, s3)); [apply (cruns_runs prog (S q :: ks) _ _ E3)|].
      eapply cruns_trans; [apply (cruns_runs prog (S q :: ks) _ _ E4)|]. cbn [fst snd].
      apply (cruns_trans _ _ (S q, ks, s5)).
      { apply cruns_one. apply (cstep_return prog _ s4 0 0 s5 (S q) ks Sj3 E5). rewrite C1, Ept. unfold call_op in Sq0. rewrite (address_call prog q _ _ Sq0). reflexivity. }
      replace (q + S (length (release (slots ps))))%nat with (S q + length (release (slots ps)))%nat by lia.
      apply (cruns_runs prog ks _ _ E6).
    - destruct G6 as (K1 & K2 & K3 & K4 & K5). pose proof (ret_fch _ _ _ _ E5) as K6. destruct G4 as (_ & _ & _ & _ & K7). destruct G3 as (_ & _ & _ & _ & K8).
      unfold same_regs. repeat split; congruence.
    - intros x Hx. apply (contains_rd s4 s6); auto.
      assert (Hx' : In x (xs_all os fs ls)) by (unfold xs_all; apply in_or_app; auto).
      specialize (H4 x Hx'). specialize (Ov x Hx). unfold frame_adr in H4. replace (vlev x =? k) with false in H4 by lia. exact H4.
    - intros w Hw Nw. rewrite Rd64, M4, M3; [apply Same, Hw|lia|].
      intros x Hx. unfold xs_all in Hx. apply in_app_or in Hx. destruct Hx as [Hx|Hx]; [|apply in_app_or in Hx; destruct Hx as [Hx|Hx]]; unfold within.
      + specialize (Ov x Hx). unfold frame_adr. replace (vlev x =? k) with false by lia. apply (Nw x Hx).
      + destruct (fr_at _ _ _ (all_front k res ps) x Hx) as (J1 & J2 & J3 & J4). pose proof (sizes_small (vty x)).
        unfold frame_adr. replace (vlev x =? k) with true by lia. replace (voff x <? 0) with true by lia. lia.
      + destruct (lo_at _ _ _ Lo x Hx) as (J1 & J2 & J3 & J4).
        unfold frame_adr. replace (vlev x =? k) with true by lia. replace (voff x <? 0) with false by lia. lia.
    - destruct res as [t|]; [|exact I]. apply (contains_rd s4 s6); auto.
      assert (Hx : In (result_var k t ps) (xs_all os (result_vars k (Some t) ps ++ value_vars k ps) ls)).
      { unfold xs_all. rewrite !in_app_iff. right. left. left. left. reflexivity. }
      specialize (H4 _ Hx). unfold frame_adr, result_var in H4. cbn [vlev voff vty] in H4. rewrite Z.eqb_refl in H4.
      unfold behind in *. pose proof (sizes_small t). rewrite slots_cons in *.
      replace (- (slot (ByValue t) + slots ps) <? 0) with true in H4 by lia.
      replace (fp s2 + - (slot (ByValue t) + slots ps)) with (sp s + 2) in H4 by lia. exact H4.
  Qed.
End Invoke.
