(** Procedures and functions do what their bodies mean. *)

From Coq Require Import ZArith Bool List Lia ZifyBool.
From Verif Require Import Words WordLemmas State StateLemmas Opcodes EncodeModel SetModel LongModel Machine VmSpec VmProofs MemProofs MultiProofs CallProofs
  OptSpec ExprModel ExprSpec ExprRun ExprOps ExprLoad ExprProofs ExprMain ExprTotal StmtModel StmtSpec StmtPlain StmtRun StmtStore StmtStep
  StmtMain ArrModel ArrCases ActModel ActSpec ActProofs ActRun BlockModel BlockSpec BlockProofs BlockFrame BlockCall.
From Verif Require DeclModel.
From Verif Require Import StmtSpec.
Import ListNotations.
Open Scope Z_scope.

(** ** The code of a procedure *)

Lemma routine_ok k xs dstack inits ini bts ss : block_text k xs dstack inits ini bts ss ->
  forall c b rest plabel label inner, toks c = bts ++ b :: rest -> tk b = tSEMICOLON -> g_level c = k -> g_adjust c = 0 ->
  0 <= g_label c -> g_label c + 2 * Z.of_nat (length bts) <= 65535 -> 0 <= plabel <= 65535 -> 0 <= label <= 65535 ->
  exists c' main,
    (forall n, (4 * length (toks c) + 2 <= n)%nat -> routine n plabel label dstack inner inits c = SDone c') /\
    toks c' = rest /\ errs c' = errs c /\ g_level c' = k - 1 /\
    out c' = out c ++ mkOp oLABEL 0 plabel :: nested_code k label inner ++ main ++ [mkOp oRET 0 0] /\
    hd_error main = Some (mkOp oLABEL 0 label) /\ block_sim k xs dstack ini bts ss main.
Proof.
  intros Bt [T O E l L C B A] b rest plabel label inner. cbn [toks out errs g_label g_level g_continue g_break g_adjust].
  intros -> Tb -> -> H1 H2 Hp Hl.
  destruct (block_ok k xs dstack inits ini bts ss Bt label Hl inner (b :: rest) (O ++ [mkOp oLABEL 0 plabel]) E l C B H1 H2) as (main & l' & Hl' & Hd & Hc & Hs).
  exists (mkComp rest (O ++ mkOp oLABEL 0 plabel :: nested_code k label inner ++ main ++ [mkOp oRET 0 0]) E l' (k - 1) C B 0), main.
  split; [|cbn [toks out errs g_label g_level]; auto 10].
  intros n Hn. unfold routine. rewrite c_label by lia. rewrite Hc by exact Hn. cbn [binds].
  rewrite c_simple by reflexivity. unfold with_level. cbn [toks out errs g_label g_level g_continue g_break g_adjust].
  rewrite c_expect by exact Tb. rewrite <- !app_assoc. reflexivity.
Qed.

(** ** Calls *)

Section Calls.
  Variables (lev : Z) (p : proc) (ps : list parm) (ts : list tok) (l : list arg).
  Hypothesis D : Forall2 described (pFormals p) ps.
  Hypothesis G : glist lev ps ts l.
  Hypothesis Lv : 0 <= pLevel p < 255.
  Hypothesis Lb : 0 <= pLabel p < 65536.

  Lemma procedure_called : slots ps <= 32768 -> exists call,
    (forall c name rest n, toks c = name :: ts ++ rest -> (ts = [] -> tk (hd eoftok rest) <> tLPAREN) -> g_level c = lev ->
       (4 * length (toks c) + 4 <= n)%nat ->
       exists c', proc_statement n p c = ADone c' /\ errorless c c' rest call) /\
    compiled_body lev p ps l None (2 * Z.of_nat (length ts) + 7) call.
  Proof.
    intros Sl. destruct (list_plain lev ps ts l (pFormals p) G D) as (code & C & Pl & R). exists (code ++ call_op p :: release (slots ps)).
    pose proof (slots_pos ps). split.
    - intros c name rest n Tk H0 L F. exists (after c rest (code ++ call_op p :: release (slots ps))). split; [|apply after_errorless]. unfold proc_statement.
      rewrite (get_at _ _ _ Tk). rewrite (C (after c (ts ++ rest) []) rest n eq_refl H0 L).
      + rewrite after_after. cbn [app]. rewrite call_eq by assumption.
        replace (if 0 <? slots ps then data_op oINDS (- slots ps) (after c rest (code ++ [call_op p])) else after c rest (code ++ [call_op p]))
          with (if slots ps =? 0 then after c rest (code ++ [call_op p]) else data_op oINDS (- slots ps) (after c rest (code ++ [call_op p])))
          by (destruct (slots ps =? 0) eqn:E1, (0 <? slots ps) eqn:E2; try reflexivity; lia).
        rewrite release_eq by lia. rewrite <- app_assoc. reflexivity.
      + rewrite after_toks. rewrite Tk in F. cbn [length] in F. lia.
    - intros os ls dstack inits ini bts ss Ov Lo Bt c b rest label inner Tk Tb Lc Ac H1 H2 H3.
      destruct (routine_ok _ _ _ _ _ _ _ Bt c b rest (pLabel p) label inner Tk Tb Lc Ac H1 H2 ltac:(lia) ltac:(lia)) as (c' & main & K1 & K2 & K3 & K4 & K5 & K6 & K7).
      exists c', (mkOp oLABEL 0 (pLabel p) :: nested_code (pLevel p + 1) label inner ++ main ++ [mkOp oRET 0 0]).
      split; [exact K1|]. split; [exact K2|]. split; [exact K3|]. split; [lia|]. split; [exact K5|].
      intros prog i j Si Sj env0 adr vs s ks h oadr olinks obase ro Q A Pv Rg Rm Su Po Ob Ho Me.
      apply stands_app in Si. destruct Si as (Si1 & Si2).
      pose proof (bt_stack _ _ _ _ _ _ _ Bt) as Ds.
      destruct (R env0 adr vs A s) as (s1 & E1 & P1).
      { apply (room_mono _ _ _ Rm). unfold whole. lia. }
      { exact Pv. }
      assert (W : Z.of_nat (length (arg_words ps vs)) <= 2 * Z.of_nat (length ts)) by (eapply few_words; eauto).
      destruct (invoke p None ps os ls dstack ini bts ss label inner main Lv Lb Sl Ov Lo Ds (bt_once _ _ _ _ _ _ _ Bt) ltac:(lia) K6 K7
        prog (i + length code)%nat j env0 adr l vs s s s1 [] ks h oadr olinks obase ro Q Si2 Sj A (all_ok lev env0 adr s ps ts l G _ D vs A Pv) Rg)
        as (s' & r' & X1 & X2 & X3 & X4 & X5 & X6 & X7); auto using pushed_nil.
      { apply Rm. }
      { pose proof (room_pushed s s1 _ _ P1 Rm) as Z1. apply (room_mono _ _ _ Z1). unfold room_for. lia. }
      exists s', r'. split; [|rewrite Z.add_0_r; auto 10].
      eapply cruns_trans; [apply (cruns_runs prog ks _ _ (runs_plain prog code i s s1 Si1 Pl E1))|]. cbn [fst snd].
      rewrite app_length. cbn [length]. rewrite Nat.add_assoc. exact X1.
  Qed.

  Lemma function_called t : map_type (pType p) = Some t -> pSize p = size_of t -> slots (ByValue t :: ps) <= 32768 -> exists call,
    (forall c name rest n, toks c = name :: ts ++ rest -> (ts = [] -> tk (hd eoftok rest) <> tLPAREN) -> g_level c = lev ->
       (4 * length (toks c) + 4 <= n)%nat ->
       exists c', function_designator n p c = Done t c' /\ errorless c c' rest call) /\
    compiled_body lev p ps l (Some t) (2 * Z.of_nat (length ts) + 9) call.
  Proof.
    intros Mt Sz Sl'. destruct (list_plain lev ps ts l (pFormals p) G D) as (code & C & Pl & R).
    exists (container t :: code ++ call_op p :: release (slots ps)).
    pose proof (slots_pos ps). pose proof Sl' as Sl. rewrite slots_cons in Sl. pose proof (sizes_small t) as St. split.
    - intros c name rest n Tk H0 L F. exists (after c rest (container t :: code ++ call_op p :: release (slots ps))). split; [|apply after_errorless].
      unfold function_designator. rewrite Mt, Sz.
      replace (getToken (data_op oINDS (DeclModel.INT_ALIGNUP (size_of t)) c)) with (after c (ts ++ rest) [container t]).
      2:{ unfold container. replace (data_op oINDS (DeclModel.INT_ALIGNUP (size_of t)) c) with (append (mkOp oINDS 0 (slot (ByValue t))) c)
            by (destruct t; reflexivity). rewrite append_code, (get_code c name (ts ++ rest) _ Tk). reflexivity. }
      rewrite (C (after c (ts ++ rest) [container t]) rest n eq_refl H0 L).
      + rewrite after_after, call_eq, release_eq by (assumption || lia). rewrite <- app_assoc. reflexivity.
      + rewrite after_toks. rewrite Tk in F. cbn [length] in F. lia.
    - intros os ls dstack inits ini bts ss Ov Lo Bt c b rest label inner Tk Tb Lc Ac H1 H2 H3.
      destruct (routine_ok _ _ _ _ _ _ _ Bt c b rest (pLabel p) label inner Tk Tb Lc Ac H1 H2 ltac:(lia) ltac:(lia)) as (c' & main & K1 & K2 & K3 & K4 & K5 & K6 & K7).
      exists c', (mkOp oLABEL 0 (pLabel p) :: nested_code (pLevel p + 1) label inner ++ main ++ [mkOp oRET 0 0]).
      split; [exact K1|]. split; [exact K2|]. split; [exact K3|]. split; [lia|]. split; [exact K5|].
      intros prog i j Si Sj env0 adr vs s ks h oadr olinks obase ro Q A Pv Rg Rm Su Po Ob Ho Me.
      apply stands_cons in Si. destruct Si as (Si0 & Si). apply stands_app in Si. destruct Si as (Si1 & Si2).
      pose proof (bt_stack _ _ _ _ _ _ _ Bt) as Ds.
      assert (Sv : slot (ByValue t) = 2 * Z.of_nat (length (words t 0))) by apply (slot_words (ByValue t) 0).
      set (m := length (words t 0)) in *. pose proof Rm as (R1 & R2 & R3 & R4).
      assert (Wd : 0 <= whole dstack / 2) by (unfold whole; lia).
      destruct (run_inds prog i (slot (ByValue t)) s) as (s0 & E0 & _ & S0 & _).
      { unfold container in Si0. rewrite Z.mod_small by lia. exact Si0. }
      { lia. }
      { lia. }
      { exact R3. }
      clear s0 E0 S0.
      destruct (inds_pushed s m) with (q := u16 (pc s + 3)) as (us & Lu & P0); [eapply room_mono; [exact Rm|lia]|].
      assert (E0 : runs prog (i, s) (S i, with_pc (with_sp s (sp s + 2 * Z.of_nat m)) (u16 (pc s + 3)))).
      { apply runs_one. apply (step_falls prog i s _ _ Si0 eq_refl); [|reflexivity]. unfold container.
        rewrite OptUnaryStep.flow_inds by lia.
        assert (S16 : s16 (slot (ByValue t)) = slot (ByValue t)) by (apply s16_small; lia). rewrite S16.
        replace ((0 <=? sp s + slot (ByValue t)) && (sp s + slot (ByValue t) <? c_ssz (cf s))) with true by lia.
        rewrite (u16_small (sp s + slot (ByValue t))) by lia. rewrite Sv. reflexivity. }
      set (s0 := with_pc (with_sp s (sp s + 2 * Z.of_nat m)) (u16 (pc s + 3))) in *.
      assert (Pv0 : Forall (provided lev s0 env0 adr) l) by (eapply Forall_impl; [|exact Pv]; intros x; apply (provided_mono lev s s0 us env0 adr x P0)).
      pose proof (room_pushed s s0 _ us P0 Rm) as Rm0. rewrite Lu in Rm0.
      destruct (R env0 adr vs A s0) as (s1 & E1 & P1); [eapply room_mono; [exact Rm0|lia]|exact Pv0|].
      assert (W : Z.of_nat (length (arg_words ps vs)) <= 2 * Z.of_nat (length ts)) by (eapply few_words; eauto).
      destruct (invoke p (Some t) ps os ls dstack ini bts ss label inner main Lv Lb Sl' Ov Lo Ds (bt_once _ _ _ _ _ _ _ Bt) ltac:(lia) K6 K7
        prog (S i + length code)%nat j env0 adr l vs s s0 s1 us ks h oadr olinks obase ro Q Si2 Sj A (all_ok lev env0 adr s ps ts l G _ D vs A Pv) Rg R1 P0)
        as (s' & r' & X1 & X2 & X3 & X4 & X5 & X6 & X7); auto.
      { lia. }
      { pose proof (room_pushed s0 s1 _ _ P1 Rm0) as Z1. apply (room_mono _ _ _ Z1). unfold room_for. lia. }
      exists s', r'. split; [|rewrite Sv; replace (sp s + 2 * Z.of_nat m) with (sp s0) by reflexivity; auto 10].
      eapply cruns_trans; [apply (cruns_runs prog ks _ _ E0)|]. cbn [fst snd].
      eapply cruns_trans; [apply (cruns_runs prog ks _ _ (runs_plain prog code (S i) s0 s1 Si1 Pl E1))|]. cbn [fst snd].
      cbn [length]. rewrite app_length. cbn [length].
      match type of X1 with cruns _ _ (?q, _, _) => replace (i + S (length code + S (length (release (slots ps)))))%nat with q by lia end. exact X1.
  Qed.
End Calls.
