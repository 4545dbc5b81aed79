(** HALT and EXIT. *)

From Coq Require Import ZArith Bool List Lia ZifyBool.
From Verif Require Import Words WordLemmas State StateLemmas Opcodes EncodeModel SetModel LongModel Machine VmSpec
  VmProofs MemProofs MultiProofs ExprModel ExprSpec ExprRun ExprOps ExprLoad ExprProofs ExprMain ExprParse ExprCases
  StmtModel StmtAccept ActAccept ArrModel ArrProofs ArrCases WriteModel WriteSpec WriteRun WriteProofs WriteMain HaltModel HaltSpec.
From Verif Require StringSpec StringProofs.
Import ListNotations.
Open Scope Z_scope.
Local Ltac Zify.zify_post_hook ::= Z.div_mod_to_equations.

Definition exit_op : opType := mkOp oOSOP osEXIT 0.

Lemma exit_app more : forall code s s', exec_list code s = Ok s' -> exit_code (code ++ more) s = exit_code more s'.
Proof.
  induction code as [|p code IH]; intros s s' E; cbn [exec_list app exit_code] in *; [congruence|].
  destruct (Z.eqb_spec (op p) oOSOP) as [O|O].
  - exfalso. unfold exec_insn in E. rewrite O in E. vm_compute in E. discriminate E.
  - destruct (exec_insn s p) as [s1| | | |] eqn:X; try discriminate E. apply IH. exact E.
Qed.

Lemma exit_pushed s s1 z more : 0 <= sp s1 < 65536 -> pushed s s1 [z mod 65536] -> -32768 <= z <= 32767 ->
  exit_code (exit_op :: more) s1 = Some z.
Proof.
  intros B P Z. pose proof (pushed_operands _ _ _ B P) as Ho. cbn [rev app] in Ho.
  cbn [exit_code exit_op op arg1]. rewrite !Z.eqb_refl. StringProofs.start_pops Ho. f_equal. change (z mod 65536) with (u16 z). rewrite s16_u16. apply s16_small. lia.
Qed.

Lemma local_grows_expect k e c : grows c (expect k e c).
Proof. unfold expect. destruct (token c =? k); [exists []; rewrite app_nil_r; reflexivity|exists [e]; reflexivity]. Qed.

Lemma os_after c r a : os_op osEXIT (after c r a) = after c r (a ++ [exit_op]).
Proof. unfold os_op, emit. change (has8 oOSOP) with true. change (has16 oOSOP) with false. cbn [andb error_if Z.ltb Z.compare osEXIT]. rewrite append_after. reflexivity. Qed.
Lemma push_after c r a : data_op oPUSH 0 (after c r a) = after c r (a ++ [mkOp oPUSH 0 0]).
Proof. unfold data_op, emit. change (has8 oPUSH) with false. change (has16 oPUSH) with true. cbn [andb orb error_if Z.ltb Z.compare]. rewrite append_after. reflexivity. Qed.

Lemma ended_program : forall lev ts w,
  gend (fun w => etype_of xInteger w = Some xInteger /\ forall y, In y (evars w) -> addressable lev y) ts w ->
  exists code,
    (forall c rest n, toks c = ts ++ rest -> g_level c = lev -> (4 * length (toks c) + 4 <= n)%nat ->
       exists c', end_statement n c = ADone c' /\ errorless c c' rest code) /\
    ends_with lev code (2 * Z.of_nat (length ts)) w.
Proof.
  intros lev ts w G. destruct G as [a A1 A2|a b us w d A1 A2 B Gw (Tw & Aw) D].
  - exists [mkOp oPUSH 0 0; exit_op]. split.
    + intros c rest n Tk L F. cbn [app] in Tk. exists (after c rest [mkOp oPUSH 0 0; exit_op]). split; [|apply after_errorless].
      assert (Cu : cur c = a) by (unfold cur; rewrite Tk; reflexivity).
      unfold end_statement, token. rewrite Cu, A1, A2. cbn [Z.eqb Pos.eqb negb tSTDPROC txEXIT txHALT].
      unfold halt_proc. rewrite (get_at c a _ Tk), push_after, os_after. reflexivity.
    + intros env z s more V R Lo. cbn [end_value] in V. injection V as <-. cbn [length] in R.
      destruct (computes_push lev env 0 0 1 ltac:(lia) ltac:(lia) s) as (s1 & E1 & P1); [eapply room_mono; [exact R|lia]|intros y []|].
      change ([mkOp oPUSH 0 0; exit_op] ++ more) with ([mkOp oPUSH 0 0] ++ exit_op :: more).
      rewrite (exit_app _ _ _ _ E1). destruct R as (R1 & R2 & R3 & R4). apply (exit_pushed s); [destruct P1 as (_ & Sp & _); cbn [length] in Sp; lia|exact P1|lia].
  - destruct (expr_after lev us w xInteger xInteger Gw Tw Aw) as (cw & C & R). pose proof (expr_tokens _ _ Gw) as Lus.
    exists (cw ++ [exit_op]). split.
    + intros c rest n Tk L F. cbn [app] in Tk. rewrite <- app_assoc in Tk. cbn [app] in Tk.
      exists (after c rest (cw ++ [exit_op])). split; [|apply after_errorless].
      assert (Cu : cur c = a) by (unfold cur; rewrite Tk; reflexivity).
      unfold end_statement, token. rewrite Cu, A1, A2. cbn [Z.eqb Pos.eqb negb tSTDPROC txEXIT txHALT].
      unfold exit_proc. rewrite (get_at c a _ Tk). unfold expect at 1. rewrite token_after. cbn [hd]. rewrite B, Z.eqb_refl, get_after.
      rewrite (C _ (d :: rest) n); [|reflexivity|apply ended_mark; rewrite D; cbn; tauto|exact L|].
      2:{ rewrite after_toks. rewrite Tk in F. cbn [length] in F. lia. }
      change (teq xInteger xInteger) with true. cbn [negb error_if]. unfold expect. rewrite token_after. cbn [hd]. rewrite D, Z.eqb_refl, get_after, os_after, after_after. reflexivity.
    + intros env z s more V Rm Lo. cbn [end_value end_vars] in *. destruct (R env z V) as (Rz & Cz).
      assert (Lt : Z.of_nat (length (a :: b :: us ++ [d])) = Z.of_nat (length us) + 3) by (cbn [length]; rewrite app_length; cbn [length]; lia). rewrite Lt in Rm.
      destruct (Cz s) as (s1 & E1 & P1); [eapply room_mono; [exact Rm|lia]|exact Lo|].
      rewrite <- app_assoc. cbn [app]. rewrite (exit_app _ _ _ _ E1). destruct Rm as (R1 & R2 & R3 & R4).
      apply (exit_pushed s); [destruct P1 as (_ & Sp & _); unfold words in Sp; cbn [is32 class_of length] in Sp; lia|exact P1|].
      unfold inr in Rz. cbn [class_of] in Rz. lia.
Qed.

(** What is accepted is one of these statements. *)
Lemma end_accepted : forall n c c', end_statement n c = ADone c' -> errs c' = errs c -> Forall wf_tok (toks c) ->
  exists ts w, toks c = ts ++ toks c' /\ gend (fun w => elax xInteger w = Some xInteger) ts w.
Proof.
  intros n c c' H E W. unfold end_statement in H.
  destruct (Z.eqb_spec (token c) tSTDPROC) as [K|K]; cbn [negb] in H; [|discriminate].
  destruct (at_token c ltac:(rewrite K; discriminate)) as (a & r & Tk & Ka & Cu & Tg & Eg).
  rewrite Cu in H. rewrite K in Ka. symmetry in Ka.
  assert (NE : ne c' = ne c) by (unfold ne; rewrite E; reflexivity).
  destruct (Z.eqb_spec (tsub a) txEXIT) as [X|X].
  - unfold exit_proc in H. set (c1 := expect tLPAREN eLPAREN (getToken c)) in H.
    assert (N1 : (ne c <= ne c1)%nat) by (pose proof (ne_expect tLPAREN eLPAREN (getToken c)) as Q; rewrite ne_get in Q; exact Q).
    destruct (expression n xInteger c1) as [t c2| |] eqn:Ex; try discriminate H.
    pose proof (ne_expr _ _ _ _ _ Ex) as N2.
    set (c3 := error_if (negb (teq t xInteger)) eINVARG c2) in H.
    pose proof (ne_error_if (negb (teq t xInteger)) eINVARG c2) as N3. fold c3 in N3.
    set (c4 := expect tRPAREN eRPAREN c3) in H.
    pose proof (ne_expect tRPAREN eRPAREN c3) as N4. fold c4 in N4.
    pose proof (ne_emit oOSOP osEXIT 0 c4) as N5. injection H as <-. fold (os_op osEXIT c4) in N5.
    assert (Q1 : errs c1 = errs (getToken c)) by (apply ne_clean; [apply local_grows_expect|rewrite ne_get; lia]).
    assert (Q2 : errs c2 = errs c1) by (apply ne_clean; [exact (proj1 (all_grow n) _ _ _ _ Ex)|lia]).
    assert (Q3 : errs c3 = errs c2) by (apply ne_clean; [apply local_grows, local_error_if|lia]).
    assert (Q4 : errs c4 = errs c3) by (apply ne_clean; [apply local_grows_expect|lia]).
    destruct (expect_clean tLPAREN _ _ ltac:(discriminate) Q1) as (b & B1 & B2). fold c1 in B2.
    destruct (expect_clean tRPAREN _ _ ltac:(discriminate) Q4) as (d & D1 & D2). fold c4 in D2.
    apply error_if_clean in Q3. assert (T : t = xInteger) by (destruct t; try discriminate Q3; reflexivity). subst t.
    assert (W1 : Forall wf_tok (toks c1)) by (rewrite Tk, <- Tg, B2 in W; exact (Forall_inv_tail (Forall_inv_tail W))).
    destruct (accepted_type _ _ _ _ _ Ex Q2 W1) as (ts & e & A1 & A2 & A3).
    assert (T3 : toks c3 = toks c2) by apply toks_error_if.
    exists (a :: b :: ts ++ [d]), (Some e). split.
    + unfold os_op. rewrite toks_emit, Tk, <- Tg, B2, A1, <- T3, D2. cbn [app]. rewrite <- app_assoc. reflexivity.
    + apply ge_exit; assumption.
  - destruct (Z.eqb_spec (tsub a) txHALT) as [Y|Y]; [|discriminate]. unfold halt_proc in H. injection H as <-.
    exists [a], None. split; [unfold os_op; rewrite toks_emit, toks_data, Tg, Tk; reflexivity|]. apply ge_halt; assumption.
Qed.
