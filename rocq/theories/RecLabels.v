(** The labels and the instructions that the compiler writes for procedures and programs. *)

From Coq Require Import ZArith Bool List Lia ZifyBool.
From Verif Require Import Words State Opcodes EncodeModel Machine VmSpec OptSpec ExprModel ExprSpec ExprOps ExprLoad ExprProofs ExprParse ExprTotal
  StmtModel StmtSpec StmtPlain StmtMain StmtTotal StmtLabels ArrModel ActModel ActSpec ActProofs ActAccept BlockModel BlockSpec BlockProofs BlockCall
  RecModel RecSpec RecCode RecText RecBlock RecProgram.
From Verif Require Import StmtSpec StmtRun StmtMain StmtTotal.
Import ListNotations.
Open Scope Z_scope.

(** ** Argument lists *)

Lemma loop_eats n fs : forall size c z c', actual_loop n fs size c = LDone z c' -> (len c' <= len c)%nat.
Proof.
  induction fs as [|f fs IH]; intros size c z c' H; cbn [actual_loop] in H; [injection H as _ <-; lia|].
  destruct (actual n f c) as [z1 c1| |] eqn:E; try discriminate H. apply actual_eats in E. apply IH in H.
  destruct fs; [lia|]. pose proof (len_expect tCOMMA eCOMMA c1). lia.
Qed.
Lemma list_eats n fs c z c' : actual_list n fs c = LDone z c' -> (len c' <= len c)%nat /\ grows c c'.
Proof.
  unfold actual_list. set (c0 := if token c =? tLPAREN then getToken c else c).
  assert (L0 : (len c0 <= len c)%nat /\ grows c c0).
  { unfold c0; destruct (_ =? _); [split; [apply len_get|apply grows_get]|split; [lia|apply grows_refl]]. }
  set (c1 := match fs with [] => c0 | _ => error_if (negb (token c =? tLPAREN)) eLPAREN c0 end).
  assert (L1 : len c1 = len c0 /\ grows c0 c1).
  { unfold c1; destruct fs; [split; [reflexivity|apply grows_refl]|split; [apply (len_local _ _ (local_error_if _ _ _))|apply local_grows, local_error_if]]. }
  destruct (actual_loop n fs 0 c1) as [w d| |] eqn:E; try discriminate. intros H. injection H as _ <-.
  pose proof (loop_eats _ _ _ _ _ _ E) as L2. pose proof (loop_grow _ _ _ _ _ _ E) as G2.
  assert (L3 : (len (if (token c =? tLPAREN)%Z then expect tRPAREN eRPAREN d else d) <= len d)%nat /\ grows d (if token c =? tLPAREN then expect tRPAREN eRPAREN d else d)).
  { destruct (token c =? tLPAREN); [split; [apply len_expect|apply StmtAccept.grows_expect]|split; [lia|apply grows_refl]]. }
  split; [lia|]. destruct L0, L1, L3. eapply grows_trans; [eassumption|]. eapply grows_trans; [eassumption|]. eapply grows_trans; eassumption.
Qed.

Lemma emit_regs k a v c : g_label (emit k a v c) = g_label c /\ g_continue (emit k a v c) = g_continue c /\
  g_break (emit k a v c) = g_break c /\ g_adjust (emit k a v c) = g_adjust c /\ g_level (emit k a v c) = g_level c.
Proof. unfold emit, error_if. destruct (has8 k && _), (has16 k && _); repeat split. Qed.

(** ** Initial values *)

Lemma basic_adds i c : adds c (basic_initialization i c) /\ local c (basic_initialization i c).
Proof.
  destruct i as [v k|v k|v b x y]; cbn [basic_initialization]; [| |split; [apply adds_refl|apply local_refl]].
  - split.
    + eapply adds_trans; [apply (adds_emit oPUSH 0 k); reflexivity|apply adds_ref; reflexivity].
    + eapply local_trans; [apply (local_emit oPUSH 0 k)|apply local_ref].
  - unfold data_op, simple_op. split.
    + eapply adds_trans; [apply (adds_emit oSYSIO 0 xALLOCFILE); reflexivity|].
      eapply adds_trans; [apply (adds_ref oLAS v); reflexivity|]. eapply adds_trans; [apply (adds_emit oPUSH 0 k); reflexivity|].
      eapply adds_trans; [apply (adds_emit oADD 0 0); reflexivity|]. apply adds_ref; reflexivity.
    + eapply local_trans; [apply (local_emit oSYSIO 0 xALLOCFILE)|].
      eapply local_trans; [apply (local_ref oLAS v)|]. eapply local_trans; [apply (local_emit oPUSH 0 k)|].
      eapply local_trans; [apply (local_emit oADD 0 0)|]. apply local_ref.
Qed.
Lemma value_adds i c c' : set_initial_value i c = SDone c' -> adds c c' /\ local c c'.
Proof.
  destruct i as [v k|v k|v b x y]; cbn [set_initial_value]; try (intros H; injection H as <-; split; [apply adds_refl|apply local_refl]).
  destruct (_ || _).
  { intros H; injection H as <-. split; [eapply adds_trans; [apply (adds_emit oPUSH 0 (s16 x)); reflexivity|apply adds_ref; reflexivity]|eapply local_trans; [apply (local_emit oPUSH 0 (s16 x))|apply local_ref]]. }
  destruct (is_byte_var b).
  { intros H; injection H as <-. split; [eapply adds_trans; [apply (adds_emit oPUSH 0 (s16 x)); reflexivity|apply adds_ref; reflexivity]|eapply local_trans; [apply (local_emit oPUSH 0 (s16 x))|apply local_ref]]. }
  destruct (is_long_var b); [|discriminate]. intros H; injection H as <-. unfold data_op. split.
  - eapply adds_trans; [apply (adds_emit oPUSH 0 x); reflexivity|]. eapply adds_trans; [apply (adds_emit oPUSH 0 y); reflexivity|].
    eapply adds_trans; [apply (adds_emit oPUSH 0 4); reflexivity|]. apply adds_ref; reflexivity.
  - eapply local_trans; [apply (local_emit oPUSH 0 x)|]. eapply local_trans; [apply (local_emit oPUSH 0 y)|].
    eapply local_trans; [apply (local_emit oPUSH 0 4)|]. apply local_ref.
Qed.
Lemma init_adds l c c' : initialization l c = SDone c' -> adds c c' /\ local c c'.
Proof.
  unfold initialization. set (c1 := fold_left _ l c).
  assert (A : adds c c1 /\ local c c1).
  { subst c1. revert c. induction l as [|i l IH]; intros c; cbn [fold_left]; [split; [apply adds_refl|apply local_refl]|].
    destruct (basic_adds i c), (IH (basic_initialization i c)). split; [eapply adds_trans; eauto|eapply local_trans; eauto]. }
  clearbody c1. intros H. assert (B : adds c1 c' /\ local c1 c').
  { clear A. revert c1 H. induction l as [|i l IH]; intros c1 H; cbn [set_initial_values] in H; [injection H as <-; split; [apply adds_refl|apply local_refl]|].
    destruct (set_initial_value i c1) as [d| | |] eqn:E; cbn [binds] in H; try discriminate H.
    apply value_adds in E. apply IH in H. destruct E, H. split; [eapply adds_trans; eauto|eapply local_trans; eauto]. }
  destruct A, B. split; [eapply adds_trans; eauto|eapply local_trans; eauto].
Qed.

Section Calls.
  Variables (procs : tok -> proc) (called : Z -> Prop).
  Hypothesis Known : forall t, tk t = sPROC -> called (pLabel (procs t)) /\ 0 <= pLabel (procs t) <= 65535.

  Lemma has_call c0 l C B A e d j t c : tk t = sPROC -> has called c0 l C B A e d j c ->
    has called c0 l C B A e d j (procedure_call_op (procs t) c).
  Proof.
    intros T H. destruct (Known t T) as (K & R). unfold procedure_call_op, emit.
    eapply has_ext; [apply has_append; [apply has_error_if, has_error_if; exact H|]| |].
    - split; [apply emit_written; reflexivity|]. intros _. cbn [arg2]. change (has16 oPCAL) with true. cbn iota.
      unfold u16. rewrite Z.mod_small by lia. exact K.
    - intros x. cbn [op]. change (oPCAL =? oLABEL) with false. cbn. lia.
    - intros x. unfold is_jump. cbn [op]. change (existsb (Z.eqb oPCAL) jump_codes) with false. cbn. lia.
  Qed.

  Lemma pspans_any n stmt seq more : Spans called stmt -> Spans_seq called seq -> Spans_cases called more ->
    Spans called (pany_statement procs n stmt seq more).
  Proof.
    intros HS HQ HC c0 c l C B A e d j H R W. unfold pany_statement. cbv zeta.
    destruct (token (emit oLINE 0 (tline (cur c)) c) =? sPROC) eqn:T; [|apply spans_any; assumption].
    apply (has_quiet _ _ _ _ _ _ _ _ _ oLINE 0 (tline (cur c))) in H; try reflexivity.
    assert (E : len c = len (emit oLINE 0 (tline (cur c)) c)) by (symmetry; apply len_emit).
    set (c1 := emit _ _ _ c) in *. clearbody c1. apply Z.eqb_eq in T.
    unfold proc_statement. set (fs := pFormals _). destruct (actual_list n fs (getToken c1)) as [size c2| |] eqn:X; cbn [of_ares]; try exact I.
    pose proof (list_adds _ _ _ _ _ X) as X1. destruct (list_eats _ _ _ _ _ X) as (X2 & X3).
    pose proof (len_get c1) as X4.
    assert (Y : has called c0 l C B A e d j (procedure_call_op (procs (cur c1)) c2)).
    { apply has_call; [exact T|]. eapply has_adds; [apply has_get; exact H|exact X1|exact X3]. }
    assert (Lc : len (procedure_call_op (procs (cur c1)) c2) = len c2) by apply len_emit.
    destruct (0 <? size).
    - apply spans_quiet; [apply has_quiet; [reflexivity|reflexivity|reflexivity|exact Y]|]. rewrite len_data. lia.
    - apply spans_quiet; [exact Y|lia].
  Qed.

  Lemma all_pspans n : Spans called (pstatement procs n) /\ Spans_seq called (pstatements procs n) /\ Spans_cases called (pcases procs n).
  Proof.
    induction n as [|n (HS & HQ & HC)].
    { repeat match goal with |- _ /\ _ => split end; intro; intros; exact I. }
    repeat match goal with |- _ /\ _ => split end.
    - intros c0 c l C B A e d j. change (pstatement procs (S n) c) with (pany_statement procs n (pstatement procs n) (pstatements procs n) (pcases procs n) c).
      apply pspans_any; assumption.
    - intros c0 c l C B A e d j.
      change (pstatements procs (S n) c) with (binds (pstatement procs n (getToken c)) (fun c => if token c =? tSEMICOLON then pstatements procs n c else SDone c)).
      apply (spans_seq called (pstatement procs n) (pstatements procs n)); assumption.
    - intros this fin c0 c l C B A e d j.
      change (pcases procs (S n) this fin c) with (one_case n (pstatement procs n) (pcases procs n) this fin c).
      apply spans_one; assumption.
  Qed.

  (** What is known of the code of a block: the label [label] stands at its beginning, the
      others are new, all jumps go to labels in it. *)
  Record fine_code (label l l' : Z) (ps : list opType) : Prop :=
    { fc_once : NoDup (labels ps);
      fc_label : In label (labels ps);
      fc_fresh : forall x, In x (labels ps) -> x = label \/ l < x <= l';
      fc_targets : forall x, In x (targets ps) -> In x (labels ps);
      fc_good : Forall (good called) ps }.


  Theorem pblock_fine n label dstack inner inits c c' : pblock procs n label dstack inner inits c = SDone c' -> errs c' = errs c -> token c = tBEGIN ->
    0 < label <= g_label c -> g_label c + 4 * Z.of_nat (length (toks c)) <= 65535 -> g_continue c = 0 -> g_break c = 0 -> g_adjust c = 0 ->
    exists ps, out c' = out (nested label inner c) ++ ps /\ fine_code label (g_label c) (g_label c') ps /\ g_label c <= g_label c' /\
      g_continue c' = 0 /\ g_break c' = 0 /\ g_adjust c' = 0 /\ g_level c' = g_level c.
  Proof.
    intros H E0 Bz R1 R2 Hc Hb Ha. unfold pblock in H.
    assert (N1 : g_label (nested label inner c) = g_label c /\ g_continue (nested label inner c) = g_continue c /\
      g_break (nested label inner c) = g_break c /\ g_adjust (nested label inner c) = g_adjust c /\ toks (nested label inner c) = toks c /\
      g_level (nested label inner c) = g_level c /\ grows c (nested label inner c)).
    { assert (X : forall code d, let f := fold_left (fun c p => append p c) code d in
        g_label f = g_label d /\ g_continue f = g_continue d /\ g_break f = g_break d /\ g_adjust f = g_adjust d /\ toks f = toks d /\
        g_level f = g_level d /\ errs f = errs d).
      { induction code as [|p code IH]; intros d; cbn [fold_left]; [auto 10|]. specialize (IH (append p d)). exact IH. }
      unfold nested. destruct inner as [code|]; [|repeat split; apply grows_refl].
      destruct ((0 <? label) && (0 <? g_level c)).
      - specialize (X code (data_op oJMP label c)). cbv zeta in X.
        assert (Y : local c (data_op oJMP label c)) by apply local_emit. destruct Y as (Y1 & Y2).
        destruct X as (X1 & X2 & X3 & X4 & X5 & X6 & X7). rewrite X1, X2, X3, X4, X5, X6. 
        destruct (emit_regs oJMP 0 label c) as (W1 & W2 & W3 & W4 & W5). repeat split; try assumption.
        destruct Y1 as (es & Y1); exists es; rewrite X7; exact Y1.
      - destruct (X code c) as (X1 & X2 & X3 & X4 & X5 & X6 & X7). repeat split; try assumption. exists []. rewrite X7, app_nil_r. reflexivity. }
    destruct N1 as (N1 & N2 & N3 & N4 & N5 & N6 & N7). set (c1 := nested label inner c) in *. clearbody c1.
    pose proof (has_start called c1) as H1. rewrite N1, N2, N3, N4, Hc, Hb, Ha in H1.
    assert (Tb : token c1 = tBEGIN) by (unfold token, cur in *; rewrite N5; exact Bz).
    rewrite Tb, Z.eqb_refl in H. cbn [negb error_if] in H. assert (H2 := H1). set (c2 := c1) in H2 at 2. change (data_op oLABEL label c1) with (data_op oLABEL label c2) in H.
    assert (T2 : toks c2 = toks c1) by reflexivity. clearbody c2.
    apply (has_label _ _ _ _ _ _ _ _ _ label) in H2; [|lia].
    assert (T3 : toks (data_op oLABEL label c2) = toks c2) by (apply (local_emit oLABEL 0 label)).
    set (c3 := data_op oLABEL label c2) in *. clearbody c3.
    set (c4 := if dstack =? 0 then c3 else data_op oINDS (DeclModel.INT_ALIGNUP dstack) c3) in *.
    assert (H4 : has called c1 (g_label c) 0 0 0 0 (fun x => 0 + Z.b2z (x =? label)) (fun _ => 0) c4 /\ toks c4 = toks c3).
    { unfold c4. destruct (dstack =? 0); [auto|]. split; [apply has_quiet; try reflexivity; exact H2|apply (local_emit oINDS 0 (DeclModel.INT_ALIGNUP dstack))]. }
    clearbody c4. destruct H4 as (H4 & T4).
    destruct (initialization inits c4) as [c5| | |] eqn:I5; cbn [binds] in H; try discriminate H.
    apply init_adds in I5. destruct I5 as (A5 & L5 & T5).
    pose proof (has_adds _ _ _ _ _ _ _ _ _ _ H4 c5 A5 L5) as H5.
    assert (Tk : toks c5 = toks c) by congruence.
    unfold pcompound in H.
    assert (HQ : token c5 <> 0 -> spost (fun c' => exists l' ee dd jj, has called c1 l' 0 0 0 (0 + ee) (fun x => 0 + Z.b2z (x =? label) + dd x) (fun x => 0 + jj x) c' /\
      0 <= ee /\ g_label c <= l' /\ l' + 4 * L c' + 4 <= g_label c + 4 * L c5 /\ fresh (g_label c) l' dd /\ (ee = 0 -> closed (loops 0 0) dd jj)) (pstatements procs n c5)).
    { intros Nz. apply (proj1 (proj2 (all_pspans n))); [exact Nz|exact H5| |].
      - unfold regs_ok. lia.
      - unfold L, len. rewrite Tk. lia. }
    destruct (pstatements procs n c5) as [c6| | |] eqn:I6; cbn [binds] in H; try discriminate H.
    assert (Tc : token c5 <> 0).
    { unfold token, cur in *. rewrite Tk, Bz. discriminate. }
    specialize (HQ Tc). cbn [spost] in HQ. destruct HQ as (l' & ee & dd & jj & H6 & Pe & Ql & _ & F & K).
    apply (has_expect _ _ _ _ _ _ _ _ _ tEND eEND) in H6. set (c7 := expect tEND eEND c6) in *. clearbody c7.
    assert (H7 : has called c1 l' 0 0 0 (0 + ee) (fun x => 0 + Z.b2z (x =? label) + dd x) (fun x => 0 + jj x) c').
    { injection H as <-. destruct (dstack =? 0); [exact H6|apply has_quiet; try reflexivity; exact H6]. }
    clear H6. pose proof H7 as [(ps & P1 & P2 & P3) (es & E1 & E2) X1 X2 X3 X4 X5 X6].
    assert (Ez : ee = 0).
    { destruct N7 as (fs & N7). rewrite E0, N7 in E1. rewrite <- app_assoc in E1. rewrite <- (app_nil_r (errs c)) in E1 at 1.
      apply app_inv_head in E1. symmetry in E1. apply app_eq_nil in E1. destruct E1 as (_ & ->). cbn in E2. lia. }
    specialize (K Ez). exists ps. split; [exact P1|]. rewrite X1. split; [|repeat split; try assumption; congruence].
    constructor.
    - apply occ_nodup. intros x. rewrite P2. specialize (F x). destruct (x =? label) eqn:Ex; cbn [Z.b2z]; lia.
    - apply occ_in. rewrite P2. rewrite Z.eqb_refl. specialize (F label). cbn [Z.b2z]. lia.
    - intros x Ix. apply occ_in in Ix. rewrite P2 in Ix. specialize (F x). destruct (x =? label) eqn:Ex; cbn [Z.b2z] in Ix; lia.
    - intros x Ix. apply occ_in in Ix. rewrite P3 in Ix. apply occ_in. rewrite P2. destruct (K x) as [Y|(Y1 & Y2)]; [lia| |lia].
      destruct (x =? label); cbn [Z.b2z]; lia.
    - destruct X6 as (gs & G1 & G2). rewrite G1 in P1. apply app_inv_head in P1. subst gs. exact G2.
  Qed.
End Calls.

(** ** Procedures *)

Lemma labels_cons p ps : labels (p :: ps) = (if op p =? oLABEL then [arg2 p] else []) ++ labels ps.
Proof. unfold labels. cbn [filter]. destruct (op p =? oLABEL); reflexivity. Qed.
Lemma targets_cons p ps : targets (p :: ps) = (if is_jump p then [arg2 p] else []) ++ targets ps.
Proof. unfold targets. cbn [filter]. destruct (is_jump p); reflexivity. Qed.
Lemma NoDup_join (A : Type) (l m : list A) : NoDup l -> NoDup m -> (forall x, In x l -> In x m -> False) -> NoDup (l ++ m).
Proof.
  intros H1 H2 D. induction H1 as [|x l N H1 IH]; [exact H2|]. cbn [app]. constructor.
  - intros I. apply in_app_iff in I. destruct I as [I|I]; [contradiction|]. apply (D x); [left; reflexivity|exact I].
  - apply IH. intros y Y. apply D. right. exact Y.
Qed.
Lemma stands_later prog pre i code : stands prog i code -> stands (pre ++ prog) (length pre + i) code.
Proof.
  intros H k p Hp. specialize (H k p Hp). rewrite <- Nat.add_assoc. rewrite nth_error_app2 by lia.
  replace (length pre + (i + k) - length pre)%nat with (i + k)%nat by lia. exact H.
Qed.
Lemma stands_earlier prog post i code : stands prog i code -> stands (prog ++ post) i code.
Proof.
  intros H k p Hp. specialize (H k p Hp). rewrite nth_error_app1; [exact H|]. apply nth_error_Some. rewrite H. discriminate.
Qed.
Lemma stands_self code post : stands (code ++ post) 0 code.
Proof. apply stands_earlier. intros k p H. exact H. Qed.

Section Procedures.
  Variables (procs : tok -> proc) (decls : list decl).
  Hypothesis Dc : forall q d, nth_error decls q = Some d -> declared procs decls d.
  Hypothesis Names : forall t, tk t = sPROC -> exists q d, nth_error decls q = Some d /\ procs t = d_proc d.
  Definition callable (x : Z) : Prop := exists q d, nth_error decls q = Some d /\ x = pLabel (d_proc d).

  Lemma callable_names t : tk t = sPROC -> callable (pLabel (procs t)) /\ 0 <= pLabel (procs t) <= 65535.
  Proof.
    intros T. destruct (Names t T) as (q & d & Nq & ->). split; [exists q, d; auto|]. pose proof (dc_label _ _ _ (Dc q d Nq)). lia.
  Qed.

  (** All labels are new, all jumps go to labels in the code. *)
  Record closed_code (l l' : Z) (ps : list opType) : Prop :=
    { cc_once : NoDup (labels ps);
      cc_fresh : forall x, In x (labels ps) -> l < x <= l';
      cc_targets : forall x, In x (targets ps) -> In x (labels ps);
      cc_good : Forall (good callable) ps }.

  Lemma closed_app a b c p q : closed_code a b p -> closed_code b c q -> a <= b <= c -> closed_code a c (p ++ q).
  Proof.
    intros [P1 P2 P3 P4] [Q1 Q2 Q3 Q4] R. constructor.
    - rewrite labels_app. apply NoDup_join; auto. intros x X Y. apply P2 in X. apply Q2 in Y. lia.
    - intros x. rewrite labels_app, in_app_iff. intros [X|X]; [apply P2 in X|apply Q2 in X]; lia.
    - intros x. rewrite labels_app, targets_app, !in_app_iff. intros [X|X]; auto.
    - apply Forall_app; auto.
  Qed.

  Definition jump_code (lev label : Z) (inner : option (list opType)) : list opType :=
    match inner with Some _ => if (0 <? label) && (0 <? lev) then [mkOp oJMP 0 label] else [] | None => [] end.
  Lemma nested_split lev label inner : nested_code lev label inner = jump_code lev label inner ++ inner_code inner.
  Proof. unfold nested_code, jump_code, inner_code. destruct inner; [destruct (_ && _)|]; reflexivity. Qed.

  (** The block of a procedure or of the program *)
  Lemma block_closed k xs dstack inits ini ts ss : pblock_text procs decls k xs dstack inits ini ts ss ->
    forall label inner rest O E l, 0 < label <= l -> l + 4 * Z.of_nat (length (ts ++ rest)) <= 65535 ->
    exists main l' N, (forall n, (N <= n)%nat ->
        pblock procs n label dstack inner inits (mkComp (ts ++ rest) O E l k 0 0 0) =
        SDone (mkComp rest (O ++ nested_code k label inner ++ main) E l' k 0 0 0)) /\ l <= l' /\ fine_code callable label l l' main.
  Proof.
    intros Bt label inner rest O E l R1 R2.
    destruct (pblock_ok procs decls (d_formals procs decls Dc) (d_levels procs decls Dc) (d_labels procs decls Dc) (d_slots procs decls Dc)
      k xs dstack inits ini ts ss Bt label ltac:(lia) inner rest O E l 0 0) as (main & l' & N & Hl & Hd & Hc & _).
    { lia. } { rewrite app_length in R2. lia. }
    exists main, l', N. split; [exact Hc|]. split; [lia|].
    destruct (pblock_fine procs callable callable_names N label dstack inner inits _ _ (Hc N (le_n N))) as (ps & P1 & P2 & _);
      cbn [errs token cur toks g_label g_continue g_break g_adjust]; try reflexivity; try lia.
    - destruct (pbt_block _ _ _ _ _ _ _ _ _ Bt) as [a us ss' b Ta _ _]. exact Ta.
    - cbn [out g_label] in P1, P2. rewrite c_nested in P1 by lia. cbn [out] in P1. rewrite app_assoc in P1. apply app_inv_head in P1. subst ps. exact P2.
  Qed.

  Lemma routine_closed q d : nth_error decls q = Some d -> forall c b rest label inner l, before_body d c b rest label ->
    g_continue c = 0 -> g_break c = 0 -> g_label c + 4 * Z.of_nat (length (toks c)) <= 65535 -> 0 <= l ->
    l < pLabel (d_proc d) < label -> label <= g_label c -> closed_code label (g_label c) (inner_code inner) ->
    exists c' main N,
      (forall n, (N <= n)%nat -> proutine procs n (pLabel (d_proc d)) label (d_dstack d) inner (d_inits d) c = SDone c') /\
      out c' = out c ++ (mkOp oLABEL 0 (pLabel (d_proc d)) :: jump_code (d_level d) label inner) ++ inner_code inner ++ main ++ [mkOp oRET 0 0] /\
      g_label c <= g_label c' /\
      closed_code l (g_label c') ((mkOp oLABEL 0 (pLabel (d_proc d)) :: jump_code (d_level d) label inner) ++ inner_code inner ++ main ++ [mkOp oRET 0 0]).
  Proof.
    intros Nq [T O E g L C B A] b rest label inner l (HT & Tb & HL & HA & H1 & H2 & H3) HC HB R1 R0 R2 R3 [I1 I2 I3 I4].
    cbn [toks g_level g_adjust g_label g_continue g_break out] in *. subst T L C B A. set (pl := pLabel (d_proc d)) in *.
    destruct (block_closed _ _ _ _ _ _ _ (dc_text _ _ _ (Dc q d Nq)) label inner (b :: rest) (O ++ [mkOp oLABEL 0 pl]) E g ltac:(lia) R1)
      as (main & l' & N & Hc & Hl & [F1 F2 F3 F4 F5]).
    exists (mkComp rest (O ++ mkOp oLABEL 0 pl :: nested_code (d_level d) label inner ++ main ++ [mkOp oRET 0 0]) E l' (d_level d - 1) 0 0 0), main, N.
    split.
    { intros n Hn. unfold proutine. rewrite c_label by lia. rewrite Hc by exact Hn. cbn [binds].
      rewrite c_simple by reflexivity. unfold with_level. cbn [toks out errs g_label g_level g_continue g_break g_adjust].
      rewrite c_expect by exact Tb. rewrite <- !app_assoc. reflexivity. }
    cbn [out g_label]. split; [rewrite nested_split, <- app_assoc; reflexivity|]. split; [exact Hl|].
    assert (Ej : labels (jump_code (d_level d) label inner) = []).
    { unfold jump_code. destruct inner; [destruct (_ && _)|]; reflexivity. }
    assert (El : forall x, In x (labels ((mkOp oLABEL 0 pl :: jump_code (d_level d) label inner) ++ inner_code inner ++ main ++ [mkOp oRET 0 0])) <->
      x = pl \/ In x (labels (inner_code inner)) \/ In x (labels main)).
    { intros x. rewrite labels_app, labels_cons, Ej, !labels_app. cbn [op arg2]. change (oLABEL =? oLABEL) with true. change (labels [mkOp oRET 0 0]) with (@nil Z).
      rewrite !app_nil_r. cbn [app In]. rewrite !in_app_iff. split; intros [X|X]; auto. }
    constructor.
    - rewrite labels_app, labels_cons, Ej, !labels_app. cbn [op arg2]. change (oLABEL =? oLABEL) with true. change (labels [mkOp oRET 0 0]) with (@nil Z).
      rewrite !app_nil_r. cbn [app]. constructor.
      + rewrite in_app_iff. intros [X|X]; [apply I2 in X; lia|apply F3 in X; lia].
      + apply NoDup_join; auto. intros x X Y. apply I2 in X. apply F3 in Y. lia.
    - intros x X. apply El in X. destruct X as [->|[X|X]]; [lia|apply I2 in X; lia|apply F3 in X; lia].
    - intros x X. apply El. rewrite targets_app, targets_cons, !targets_app in X. change (is_jump (mkOp oLABEL 0 pl)) with false in X.
      change (targets [mkOp oRET 0 0]) with (@nil Z) in X. rewrite app_nil_r in X. cbn [app] in X. rewrite !in_app_iff in X.
      destruct X as [X|[X|X]]; [|right; left; auto|right; right; auto].
      unfold jump_code in X. destruct inner; [destruct (_ && _)|]; try (destruct X; fail). destruct X as [X|[]]. cbn [arg2] in X. subst x. auto.
    - assert (Gd : forall k v, quiet k = true -> has8 k = false -> has16 k = true -> 0 <= v <= 65535 -> good callable (mkOp k 0 v)).
      { intros k v Q B8 B16 Rv. pose proof (emit_good callable k 0 v Q) as X. rewrite B8, B16 in X. unfold u16 in X. rewrite Z.mod_small in X by lia. exact X. }
      apply Forall_app. split; [|apply Forall_app; split; [exact I4|apply Forall_app; split; [exact F5|]]].
      + constructor; [apply Gd; try reflexivity; lia|]. unfold jump_code. destruct inner; [destruct (_ && _)|]; repeat constructor; try apply Gd; try reflexivity; lia.
      + constructor; [|constructor]. exact (emit_good callable oRET 0 0 eq_refl).
  Qed.

  (** All procedures *)
  Lemma made_closed l ds code l' : made procs l ds code l' -> 0 <= l -> (forall d, In d ds -> In d decls) ->
    closed_code l l' code /\ l <= l' /\
    forall d, In d ds -> In (pLabel (d_proc d)) (labels code) /\ exists cd j, code_of procs d cd /\ stands code j cd.
  Proof.
    induction 1 as [l l' L|l d label ds1 inner b rest c c' N code ds2 codes l' Hl M1 IH1 Bf Hc Hb R1 Cc Co M2 IH2]; intros L0 Ds.
    { split; [|split; [exact L|intros d []]]. constructor; [apply NoDup_nil|intros x []|intros x []|apply Forall_nil]. }
    destruct IH1 as (K1 & G1 & D1); [lia|intros x X; apply Ds; right; apply in_app_iff; left; exact X|].
    destruct (In_nth_error decls d (Ds d (or_introl eq_refl))) as (q & Nq).
    destruct (routine_closed q d Nq c b rest label inner l Bf Hc Hb R1 L0 Hl G1 K1) as (c2 & main & N2 & C2 & O2 & G2 & K2).
    assert (c2 = c') by (specialize (Cc (max N N2) ltac:(lia)); specialize (C2 (max N N2) ltac:(lia)); congruence). subst c2.
    pose proof Co as Co'. rewrite O2 in Co'. apply app_inv_head in Co'. rewrite Co' in K2.
    destruct IH2 as (K3 & G3 & D3); [lia|intros x X; apply Ds; right; apply in_app_iff; right; exact X|].
    split; [apply (closed_app l (g_label c') l'); auto; lia|]. split; [lia|].
    intros e [<-|Ie]; [|apply in_app_iff in Ie; destruct Ie as [Ie|Ie]].
    - split.
      + rewrite labels_app, in_app_iff. left. rewrite <- Co'. left. reflexivity.
      + exists code, 0%nat. split; [|apply stands_self]. exists c, b, rest, label, inner, c', N. auto.
    - destruct (D1 e Ie) as (X & cd & j & Y & Z0). split.
      + rewrite labels_app, in_app_iff. left. rewrite <- Co'. rewrite !labels_app, !in_app_iff. right. left. exact X.
      + exists cd, (length (mkOp oLABEL 0 (pLabel (d_proc d)) :: jump_code (d_level d) label inner) + j)%nat. split; [exact Y|].
        apply stands_earlier. rewrite <- Co'. apply stands_later. apply stands_earlier. exact Z0.
    - destruct (D3 e Ie) as (X & cd & j & Y & Z0). split; [rewrite labels_app, in_app_iff; right; exact X|].
      exists cd, (length code + j)%nat. split; [exact Y|apply stands_later; exact Z0].
  Qed.
End Procedures.
