(** All statements with calls. *)

From Coq Require Import ZArith Bool List Lia ZifyBool.
From Verif Require Import Words WordLemmas State StateLemmas Opcodes EncodeModel SetModel LongModel Machine VmSpec VmProofs MemProofs MultiProofs CallProofs
  OptSpec ExprModel ExprSpec ExprRun ExprOps ExprLoad ExprProofs ExprMain ExprTotal StmtModel StmtSpec StmtPlain StmtRun StmtStore StmtStep
  StmtMain ArrModel ArrCases ActModel ActSpec ActProofs ActRun BlockModel BlockSpec BlockProofs BlockFrame BlockCall RecModel RecSpec RecMain.
From Verif Require Import StmtSpec StmtRun StmtMain.
Import ListNotations.
Open Scope Z_scope.

(** ** Calls *)

Section Sound.
  Variables (procs : tok -> proc) (decls : list decl) (lev : Z) (xs : list var).
  Hypothesis Formals : forall q d, nth_error decls q = Some d -> Forall2 described (pFormals (d_proc d)) (d_parms d).
  Hypothesis Levels : forall q d, nth_error decls q = Some d -> 0 <= pLevel (d_proc d) < 255.
  Hypothesis Labels : forall q d, nth_error decls q = Some d -> 0 <= pLabel (d_proc d) < 65536.
  Hypothesis Slots : forall q d, nth_error decls q = Some d -> slots (d_parms d) <= 32768.

  Lemma psim_call line q d ts es code C B A : nth_error decls q = Some d -> visible lev xs d ->
    glist lev (d_parms d) ts (map AExpr es) -> (forall x, In x (flat_map evars es) -> In x xs) -> Forall plain code ->
    (forall env adr vs, all_passed env adr (d_parms d) (map AExpr es) vs -> forall s, room s (2 * Z.of_nat (length ts)) -> Forall (provided lev s env adr) (map AExpr es) ->
      exists s1, exec_list code s = Ok s1 /\ pushed s s1 (arg_words (d_parms d) vs)) ->
    psim decls lev xs (mkOp oLINE 0 line :: code ++ call_op (d_proc d) :: release (slots (d_parms d))) (2 * Z.of_nat (S (length ts))) C B A
      (fun K => pmeans decls K (PCall q es)).
  Proof.
    intros Nq Vi G Us Pl R Kc Nw Nw0 adr links base s0 Pc Ev prog Ab i St s r h r' Rd Bs Rm (-> & d' & vs & Nq' & A1 & Kq).
    rewrite Nq in Nq'. injection Nq' as <-. apply stands_cons in St. destruct St as (St0 & St). apply stands_app in St. destruct St as (St1 & St2).
    assert (Pv : Forall (provided lev s r (fun _ => 0)) (map AExpr es)).
    { apply Forall_forall. intros a Ha. apply in_map_iff in Ha. destruct Ha as (e & <- & He). cbn [provided]. intros x Hx.
      apply (ready_located lev xs adr links base s0 Pc Ev s r x Rd). apply Us, in_flat_map. eauto. }
    destruct (R r (fun _ => 0) vs A1 s) as (s1 & E1 & P1); [|exact Pv|].
    { apply (room_mono _ _ _ (roomy_room _ _ Rm)). lia. }
    assert (W : Z.of_nat (length (arg_words (d_parms d) vs)) <= 2 * Z.of_nat (length ts)) by (eapply few_words; eauto).
    destruct (Ab q d Nq Vi (S i + length code)%nat s r (map AExpr es) vs s1 r' St2 Rd A1) as (s' & E2 & M2); auto.
    { apply (all_ok lev r (fun _ => 0) s (d_parms d) ts _ G _ (Formals q d Nq) vs A1 Pv). }
    { apply (roomy_mono _ _ _ Rm). lia. }
    { apply (roomy_mono s1 (2 * Z.of_nat (S (length ts)) + Nw - Z.of_nat (length (arg_words (d_parms d) vs)))); [|lia].
      apply (moves_roomy xs adr s s1 _ r); [|exact Rm]. apply (moves_pushed lev xs adr links base s0 Pc Ev s s1 _ r Rd P1). }
    exists s'. split; [|exact M2]. apply (goes_trans _ _ _ _ (go_pseudo _ _ s _ St0 eq_refl)).
    apply (goes_trans _ _ _ _ (goes_runs _ _ _ (runs_plain prog code (S i) s s1 St1 Pl E1))).
    replace (i + _)%nat with (S i + length code + S (length (release (slots (d_parms d)))))%nat; [exact E2|].
    cbn [length]. rewrite app_length. cbn [length]. lia.
  Qed.

  Lemma pmain_call t d q ts es : tk t = sPROC -> nth_error decls q = Some d -> procs t = d_proc d -> visible lev xs d ->
    glist lev (d_parms d) ts (map AExpr es) -> ok_pstmt procs decls lev xs false (t :: ts) (PCall q es).
  Proof.
    intros Ht Nq Hp Vi G brk cont W U Ln rest F _ Lr O E l C B A Hl Hl2 HB HC HA HA2.
    destruct (list_plain lev (d_parms d) ts (map AExpr es) (pFormals (d_proc d)) G (Formals q d Nq)) as (code & Cc & Pl & R).
    inversion Ln as [|? ? L1 L2]; subst.
    exists (mkOp oLINE 0 (tline t) :: code ++ call_op (d_proc d) :: release (slots (d_parms d))), l, (S (4 * length (ts ++ rest) + 4)).
    split; [lia|]. split.
    - intros [|n] Hn; [lia|]. rewrite pstatement_S. cbn [app]. rewrite (pany_proc procs n _ _ _ t _ _ _ _ _ _ _ _ L1 Ht), Hp.
      set (c := mkComp (t :: ts ++ rest) (O ++ [mkOp oLINE 0 (tline t)]) E l lev C B A).
      pose proof (slots_pos (d_parms d)) as Sp. pose proof (Slots q d Nq) as Sl.
      replace (proc_statement n (d_proc d) c) with (ADone (after c rest (code ++ call_op (d_proc d) :: release (slots (d_parms d))))).
      { unfold after, c. cbn [of_ares toks out errs g_label g_level g_continue g_break g_adjust]. rewrite <- app_assoc. reflexivity. }
      symmetry. unfold proc_statement. rewrite (get_at c t (ts ++ rest) eq_refl). rewrite (Cc (after c (ts ++ rest) []) rest n eq_refl).
      + rewrite after_after. cbn [app]. rewrite call_eq by (apply (Levels q d Nq) || apply (Labels q d Nq)).
        replace (if 0 <? slots (d_parms d) then data_op oINDS (- slots (d_parms d)) (after c rest (code ++ [call_op (d_proc d)])) else after c rest (code ++ [call_op (d_proc d)]))
          with (if slots (d_parms d) =? 0 then after c rest (code ++ [call_op (d_proc d)]) else data_op oINDS (- slots (d_parms d)) (after c rest (code ++ [call_op (d_proc d)])))
          by (destruct (slots (d_parms d) =? 0) eqn:E1, (0 <? slots (d_parms d)) eqn:E2; try reflexivity; lia).
        rewrite release_eq by lia. rewrite <- app_assoc. reflexivity.
      + intros _. unfold follows in F. cbn [In] in F. repeat (destruct F as [F|F]; [rewrite <- F; discriminate|]). destruct F.
      + reflexivity.
      + rewrite after_toks. lia.
    - apply psim_call; auto. intros x Hx. apply U. exact Hx.
  Qed.

  Theorem all_psound :
    (forall o ts st, gpstmt procs decls lev xs o ts st -> ok_pstmt procs decls lev xs o ts st) /\
    (forall ts ss, gpstmts procs decls lev xs ts ss -> ok_pstmts procs decls lev xs ts ss) /\
    (forall ts cs, gpcases procs decls lev xs ts cs -> ok_pcases procs decls lev xs ts cs).
  Proof.
    apply pstmt_grammar_ind.
    - apply pmain_empty.
    - intros. apply pmain_assign; assumption.
    - intros. eapply pmain_if; eassumption.
    - intros. apply pmain_ifelse; assumption.
    - intros. apply pmain_while; assumption.
    - intros. apply pmain_repeat; assumption.
    - intros. apply pmain_for; assumption.
    - intros. apply pmain_case; assumption.
    - intros. apply pmain_block; assumption.
    - intros. apply pmain_break; assumption.
    - intros. apply pmain_continue; assumption.
    - intros. eapply pmain_call; eassumption.
    - intros. eapply pmain_one; eassumption.
    - intros. eapply pmain_more; eassumption.
    - intros ts ks a o us s b G Ha _ IH Hb. apply (pmain_last procs decls lev xs ts ks a o us s [] b G Ha IH Hb). auto.
    - intros ts ks a o us s d b G Ha _ IH Hd Hb. apply (pmain_last procs decls lev xs ts ks a o us s [d] b G Ha IH Hb). eauto.
    - intros. eapply pmain_cases; eassumption.
    - intros a o us s b Ha _ IH Hb. apply (pmain_else procs decls lev xs a o us s [] b Ha IH Hb). auto.
    - intros a o us s d b Ha _ IH Hd Hb. apply (pmain_else procs decls lev xs a o us s [d] b Ha IH Hb). eauto.
  Qed.
End Sound.
