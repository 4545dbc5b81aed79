(** The code of an expression consists of plain instructions: no jumps, calls, labels
    or line numbers; the labels and the loop are left alone. *)

From Coq Require Import ZArith Bool List Lia ZifyBool.
From Verif Require Import Words State Opcodes EncodeModel Machine VmSpec OptSpec ExprModel ExprSpec ExprLoad ExprProofs ExprParse StmtModel StmtSpec.
From Verif Require EncodeSpec.
Import ListNotations.
Open Scope Z_scope.

Definition plain_code (k : Z) : bool := negb (existsb (Z.eqb k) (oLABEL :: oLINE :: oPCAL :: oRET :: oINDS :: jump_codes)).
Definition plain (p : opType) : Prop := plain_code (op p) = true.

(** What the compiler writes: one byte of operation code, operands in range; neither the
    end of the program nor one of the branches that the label resolution leaves out *)
Definition known_code (k : Z) : bool := (0 <=? k) && (k <? 256) && negb (existsb (Z.eqb k) [oEND; oJULT; oJUGTE; oJUGT; oJULTE]).
Definition written (p : opType) : Prop := EncodeSpec.wf_op p /\ known_code (op p) = true.

Record adds (c c' : comp) : Prop :=
  { ad_out : exists ps, out c' = out c ++ ps /\ Forall plain ps;
    ad_label : g_label c' = g_label c; ad_level : g_level c' = g_level c;
    ad_cont : g_continue c' = g_continue c; ad_brk : g_break c' = g_break c; ad_adj : g_adjust c' = g_adjust c;
    ad_text : exists ps, out c' = out c ++ ps /\ Forall written ps }.

Lemma adds_refl c : adds c c.
Proof. constructor; try reflexivity; exists []; rewrite app_nil_r; auto. Qed.
Lemma adds_trans a b c : adds a b -> adds b c -> adds a c.
Proof.
  intros [(p & P1 & P2) ? ? ? ? ? (p' & P3 & P4)] [(q & Q1 & Q2) ? ? ? ? ? (q' & Q3 & Q4)]. constructor; try congruence.
  - exists (p ++ q). rewrite Q1, P1, app_assoc. split; [reflexivity|]. apply Forall_app. auto.
  - exists (p' ++ q'). rewrite Q3, P3, app_assoc. split; [reflexivity|]. apply Forall_app. auto.
Qed.
Lemma adds_get c : adds c (getToken c).
Proof. constructor; try reflexivity; exists []; cbn; rewrite app_nil_r; auto. Qed.
Lemma adds_error e c : adds c (error e c).
Proof. constructor; try reflexivity; exists []; cbn; rewrite app_nil_r; auto. Qed.
Lemma adds_error_if b e c : adds c (error_if b e c).
Proof. destruct b; [apply adds_error|apply adds_refl]. Qed.
Lemma adds_append p c : plain p -> written p -> adds c (append p c).
Proof.
  intros P W. constructor; try reflexivity; exists [p]; split; auto.
Qed.
Lemma emit_written k a b : known_code k = true -> written (mkOp k (if has8 k then u8 a else 0) (if has16 k then u16 b else 0)).
Proof.
  intros K. split; [|exact K]. unfold known_code in K. unfold EncodeSpec.wf_op, has8, has16, u8, u16. cbn [op arg1 arg2].
  pose proof (Z.mod_pos_bound a 256 ltac:(lia)). pose proof (Z.mod_pos_bound b 65536 ltac:(lia)).
  repeat split; try (intros ->; reflexivity); try (destruct (Z.testbit k 6); lia); try (destruct (Z.testbit k 7); lia); lia.
Qed.
Lemma adds_emit k a b c : plain_code k = true -> known_code k = true -> adds c (emit k a b c).
Proof.
  intros P W. unfold emit. eapply adds_trans; [apply adds_error_if|]. eapply adds_trans; [apply adds_error_if|].
  apply adds_append; [exact P|apply emit_written; exact W].
Qed.
Lemma adds_long k c : (0 <=? k) && (k <? 256) = true -> adds c (long_op k c).
Proof.
  intros K. apply adds_append; [reflexivity|]. split; [|reflexivity]. unfold EncodeSpec.wf_op. cbn [op arg1 arg2].
  repeat split; try lia; discriminate || reflexivity.
Qed.
Lemma adds_ref k v c : plain_code k = true -> plain_code (level0 k) = true -> known_code k = true -> known_code (level0 k) = true -> adds c (stack_ref k v c).
Proof.
  intros P Q W1 W2. unfold stack_ref. destruct (_ && _); [destruct (_ <? _)|]; auto using adds_error, adds_emit.
Qed.
Global Hint Resolve adds_refl adds_get adds_error adds_error_if : adds.
Global Hint Extern 2 (adds _ (long_op _ _)) => apply adds_long; reflexivity : adds.
Global Hint Extern 2 (adds _ (emit _ _ _ _)) => apply adds_emit; reflexivity : adds.
Global Hint Extern 2 (adds _ (stack_ref _ _ _)) => apply adds_ref; reflexivity : adds.

Ltac inv_done H := apply bindr_done in H; let t := fresh "t" in let c := fresh "c" in let E := fresh "E" in destruct H as (t & c & E & H).
Ltac ifs := repeat match goal with |- context [if ?b then _ else _] => destruct b end.
Lemma adds_negate t c : adds c (negate t c).
Proof. unfold negate, simple_op. ifs; auto with adds. Qed.
Lemma adds_add o t c : adds c (add_op o t c).
Proof. unfold add_op, simple_op. ifs; auto with adds. Qed.
Lemma adds_mul o t c : adds c (mul_op o t c).
Proof. unfold mul_op, simple_op. ifs; auto with adds. Qed.
Lemma adds_convert n o c : adds c (convert n o c).
Proof. unfold convert. ifs; auto with adds. Qed.
Lemma adds_check f t c : adds c (check_type f t c).
Proof. unfold check_type. auto with adds. Qed.
Lemma adds_const f v c : adds c (snd (int_const f v c)).
Proof.
  unfold int_const, data_op. destruct (among f longs); [|destruct (v <=? 65535)]; cbn [snd]; auto with adds;
    (eapply adds_trans; [|apply adds_emit; reflexivity]; apply adds_emit; reflexivity).
Qed.
Lemma adds_compare r a b c : adds c (snd (compare (rel_ops r) a b c)).
Proof.
  unfold compare, simple_op. destruct (_ && _ && _); cbn [snd].
  - destruct r; auto with adds.
  - destruct (teq a b); [|destruct (teq a xInteger && _); [|destruct (among a _ && _)]]; ifs; cbn [snd];
      try (destruct r; auto with adds; fail);
      (eapply adds_trans; [apply adds_error|]); destruct r; auto with adds.
Qed.
Global Hint Resolve adds_negate adds_add adds_mul adds_convert adds_check adds_const adds_compare : adds.

Definition Adds (f : comp -> res) : Prop := forall c t c', f c = Done t c' -> adds c c'.

Lemma adds_std f t c : adds c (std_code f t c).
Proof.
  unfold std_code, simple_op, data_op.
  repeat match goal with |- adds _ (if ?b then _ else _) => destruct b end; auto with adds.
  all: eapply adds_trans; [|apply adds_emit; reflexivity]; auto with adds.
  eapply adds_trans; apply adds_emit; reflexivity.
Qed.

Lemma factor_adds n find c t c' : factor (S n) find c = Done t c' ->
  token c <> tLPAREN -> token c <> tNOT -> token c <> tTILDE -> token c <> sTYPE -> token c <> tSTDFUNC -> adds c c'.
Proof.
  intros H N1 N2 N3 N4 N5. cbn [factor] in H.
  assert (G : forall d, adds c d -> adds c (getToken d)) by (intros d D; eapply adds_trans; [exact D|apply adds_get]).
  destruct (token c =? tIDENT); [apply done_inv in H; destruct H as (_ & ->); auto with adds|].
  destruct (token c =? tINT_CONST).
  { destruct (int_const find (tval (cur c)) c) as [ty d] eqn:E. apply done_inv in H; destruct H as (_ & ->). apply G.
    replace d with (snd (int_const find (tval (cur c)) c)) by (rewrite E; reflexivity). apply adds_const. }
  do 8 (match type of H with (if ?b then _ else _) = _ => destruct b end; [apply done_inv in H; destruct H as (_ & ->); apply G; unfold data_op; auto with adds|]).
  do 2 (match type of H with (if ?b then _ else _) = _ => destruct b end;
    [apply done_inv in H; destruct H as (_ & ->); apply G; unfold data_op; eapply adds_trans; [|apply adds_ref; reflexivity]; apply adds_emit; reflexivity|]).
  replace (token c =? tLPAREN) with false in H by lia.
  replace ((token c =? tTILDE) || (token c =? tNOT)) with false in H by lia.
  replace (token c =? sTYPE) with false in H by lia.
  replace (token c =? tSTDFUNC) with false in H by lia.
  destruct (existsb _ _); [discriminate|]. apply done_inv in H; destruct H as (_ & ->). auto with adds.
Qed.

Lemma all_add n : (forall f, Adds (expression n f)) /\ (forall f, Adds (simple_expression n f)) /\
  (forall f t, Adds (terms n f t)) /\ (forall f, Adds (term n f)) /\ (forall f t, Adds (factors n f t)) /\
  (forall f, Adds (factor n f)).
Proof.
  induction n as [|n (IE & IS & ITs & IT & IFs & IF)]; [repeat match goal with |- _ /\ _ => split end; intros; intros c t' c' H; discriminate H|].
  assert (Get : forall f, Adds f -> Adds (fun c => f (getToken c))).
  { intros f Hf c t c' H. eapply adds_trans; [apply adds_get|apply (Hf _ _ _ H)]. }
  repeat match goal with |- _ /\ _ => split end.
  - intros f c t c' H. rewrite expression_S in H. inv_done H. apply IS in E. eapply adds_trans; [exact E|].
    destruct (token c0 =? tIN); [discriminate|]. destruct (relation (token c0)) as [r|] eqn:RL.
    + apply relation_inv in RL. destruct RL as (o & _ & ->).
      inv_done H. apply (Get _ (IS f)) in E0. eapply adds_trans; [exact E0|].
      destruct (compare (rel_ops o) t0 t1 c1) as [t2 c2] eqn:K. apply done_inv in H. destruct H as (_ & ->).
      eapply adds_trans; [|apply adds_check].
      replace c2 with (snd (compare (rel_ops o) t0 t1 c1)) by (rewrite K; reflexivity). apply adds_compare.
    + apply done_inv in H. destruct H as (_ & ->). apply adds_check.
  - intros f c t c' H. rewrite simple_S in H. cbv zeta in H. inv_done H. apply IT in E. apply ITs in H.
    eapply adds_trans; [|eapply adds_trans; [exact E|]].
    + destruct (_ || _); [apply adds_get|apply adds_refl].
    + eapply adds_trans; [|exact H]. destruct (token c =? tMINUS); [apply adds_negate|apply adds_refl].
  - intros f t1 c t c' H. rewrite terms_S in H. cbv zeta in H. destruct (is_addop (token c)).
    + destruct (_ && _); [discriminate|]. inv_done H. apply (Get _ (IT f)) in E. eapply adds_trans; [exact E|].
      apply ITs in H. eapply adds_trans; [|exact H]. eapply adds_trans; [apply adds_error_if|apply adds_add].
    + apply done_inv in H. destruct H as (_ & ->). apply adds_refl.
  - intros f c t c' H. rewrite term_S in H. inv_done H. apply IF in E. apply IFs in H. eapply adds_trans; eauto.
  - intros f t1 c t c' H. rewrite factors_S in H. cbv zeta in H. destruct (is_mulop (token c)).
    2:{ apply done_inv in H. destruct H as (_ & ->). apply adds_refl. }
    destruct (is_shift (token c)); inv_done H; apply (Get _ (IF _)) in E; (eapply adds_trans; [exact E|]); apply IFs in H;
      (eapply adds_trans; [|exact H]).
    + eapply adds_trans; [|apply adds_mul]. eapply adds_trans; apply adds_error_if.
    + apply adds_mul.
  - intros f c t c' H. apply (factor_cases c).
    + intros K. rewrite factor_paren in H by exact K. inv_done H. apply (Get _ (IE _)) in E. eapply adds_trans; [exact E|].
      destruct (token c0 =? tRPAREN); apply done_inv in H; destruct H as (_ & ->); auto with adds.
    + intros K. rewrite factor_not in H by exact K. inv_done H. apply (Get _ (IF _)) in E. eapply adds_trans; [exact E|].
      cbv zeta in H. apply done_inv in H. destruct H as (-> & ->).
      eapply adds_trans; [apply (adds_error_if (negb (among t0 int16s || among t0 longs || teq t0 xBoolean)) eFACTORTYPE)|].
      unfold simple_op. destruct (among t0 longs); auto with adds.
    + intros K. rewrite factor_cast in H by exact K. cbv zeta in H. destruct (negb _).
      * apply done_inv in H. destruct H as (_ & ->). eapply adds_trans; [apply adds_get|apply adds_error].
      * destruct (map_type _); [|discriminate]. inv_done H. apply (Get _ (IE _)) in E. eapply adds_trans; [apply adds_get|].
        eapply adds_trans; [exact E|]. set (d := if token c0 =? tRPAREN then _ else _) in H.
        assert (D : adds c0 d) by (unfold d; destruct (token c0 =? tRPAREN); auto with adds).
        destruct (teq t0 xUnknown); apply done_inv in H; destruct H as (_ & ->); [exact D|]. eapply adds_trans; [exact D|apply adds_convert].
    + intros K. rewrite factor_std in H by exact K. cbv zeta in H. destruct (is_std _); [|discriminate]. inv_done H.
      apply IE in E. apply done_inv in H. destruct H as (_ & ->).
      assert (D : adds (getToken c) (if token (getToken c) =? tLPAREN then getToken (getToken c) else error eLPAREN (getToken c))).
      { destruct (_ =? tLPAREN); auto with adds. }
      eapply adds_trans; [apply adds_get|]. eapply adds_trans; [exact D|]. eapply adds_trans; [exact E|].
      apply (adds_trans _ (std_code (tsub (cur c)) t0 c0)); [apply adds_std|]. destruct (_ =? tRPAREN); auto with adds.
    + intros N1 N2 N3 N4 N5. apply (factor_adds _ _ _ _ _ H N1 N2 N3 N4 N5).
Qed.

Lemma expression_adds n f c t c' : expression n f c = Done t c' -> adds c c'.
Proof. intros H. exact (proj1 (all_add n) f c t c' H). Qed.

(** The code found by the theorem on expressions is plain. *)
Lemma code_plain n f c t c' ps : expression n f c = Done t c' -> out c' = out c ++ ps -> Forall plain ps.
Proof.
  intros H E. apply expression_adds in H. destruct H as [(qs & Q1 & Q2) _ _ _ _ _ _].
  rewrite Q1 in E. apply app_inv_head in E. subst. exact Q2.
Qed.
