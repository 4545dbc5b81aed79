(** What the statement compiler accepts is a statement. *)

From Coq Require Import ZArith Bool List Lia ZifyBool.
From Verif Require Import Words State Opcodes EncodeModel Machine VmSpec OptSpec ExprModel ExprSpec ExprOps ExprLoad ExprProofs ExprParse ExprAccept ExprTotal ExprCases StmtModel StmtSpec StmtPlain StmtMain StmtTotal StmtLabels.
Import ListNotations.
Open Scope Z_scope.

(** ** Inversion *)

Lemma binds_inv r k c : binds r k = SDone c -> exists c1, r = SDone c1 /\ k c1 = SDone c.
Proof. destruct r; cbn; try discriminate. eauto. Qed.
Lemma binde_inv r k c : binde r k = SDone c -> exists t c1, r = Done t c1 /\ k c1 = SDone c.
Proof. destruct r; cbn; try discriminate. eauto. Qed.
Lemma sdone_inv c c' : SDone c = SDone c' -> c' = c.
Proof. congruence. Qed.

(** ** The number of errors *)

Definition ne (c : comp) : nat := length (errs c).
Lemma ne_grows a b : grows a b -> (ne a <= ne b)%nat.
Proof. intros (es & E). unfold ne. rewrite E, app_length. lia. Qed.
Lemma ne_clean a b : grows a b -> ne b = ne a -> errs b = errs a.
Proof.
  intros (es & E) N. unfold ne in N. rewrite E, app_length in N. destruct es; [|cbn in N; lia]. rewrite E, app_nil_r. reflexivity.
Qed.
Lemma ne_get c : ne (getToken c) = ne c.
Proof. reflexivity. Qed.
Lemma ne_error e c : ne (error e c) = S (ne c).
Proof. unfold ne. cbn. rewrite app_length. cbn. lia. Qed.
Lemma ne_emit k a b c : (ne c <= ne (emit k a b c))%nat.
Proof. apply ne_grows, local_grows, local_emit. Qed.
Lemma ne_data k v c : (ne c <= ne (data_op k v c))%nat.
Proof. apply ne_emit. Qed.
Lemma ne_simple k c : (ne c <= ne (simple_op k c))%nat.
Proof. apply ne_emit. Qed.
Lemma ne_ref k v c : (ne c <= ne (stack_ref k v c))%nat.
Proof. apply ne_grows, local_grows, local_ref. Qed.
Lemma ne_count c : ne (count c) = ne c.
Proof. reflexivity. Qed.
Lemma ne_loop x y z c : ne (with_loop x y z c) = ne c.
Proof. reflexivity. Qed.
Lemma ne_expect k e c : (ne c <= ne (expect k e c))%nat.
Proof. unfold expect. destruct (token c =? k); [rewrite ne_get|rewrite ne_error]; lia. Qed.
Lemma ne_expr n f c t c' : expression n f c = Done t c' -> (ne c <= ne c')%nat.
Proof. intros H. apply ne_grows. exact (proj1 (all_grow n) f c t c' H). Qed.
Lemma ne_error_if b e c : (ne c <= ne (error_if b e c))%nat.
Proof. destruct b; [rewrite ne_error|]; cbn [error_if]; lia. Qed.
Lemma ne_error_true e c : ne (error_if true e c) = S (ne c).
Proof. apply ne_error. Qed.

Ltac ne_fact p := let T := type of p in lazymatch goal with _ : T |- _ => fail | _ => pose proof p end.
(* Everything but error() keeps or raises the number of errors. *)
Ltac nes := repeat match goal with
  | |- context [ne (data_op ?k ?v ?c)] => ne_fact (ne_data k v c)
  | |- context [ne (simple_op ?k ?c)] => ne_fact (ne_simple k c)
  | |- context [ne (stack_ref ?k ?v ?c)] => ne_fact (ne_ref k v c)
  | |- context [ne (expect ?k ?e ?c)] => ne_fact (ne_expect k e c)
  | |- context [ne (emit ?k ?a ?b ?c)] => ne_fact (ne_emit k a b c)
  | |- context [ne (getToken ?c)] => ne_fact (ne_get c)
  | |- context [ne (error ?e ?c)] => ne_fact (ne_error e c)
  | |- context [ne (count ?c)] => ne_fact (ne_count c)
  | |- context [ne (with_loop ?x ?y ?z ?c)] => ne_fact (ne_loop x y z c)
  | |- context [ne (error_if true ?e ?c)] => ne_fact (ne_error_true e c)
  | |- context [ne (error_if ?b ?e ?c)] => ne_fact (ne_error_if b e c)
  | _ : context [ne (data_op ?k ?v ?c)] |- _ => ne_fact (ne_data k v c)
  | _ : context [ne (simple_op ?k ?c)] |- _ => ne_fact (ne_simple k c)
  | _ : context [ne (stack_ref ?k ?v ?c)] |- _ => ne_fact (ne_ref k v c)
  | _ : context [ne (expect ?k ?e ?c)] |- _ => ne_fact (ne_expect k e c)
  | _ : context [ne (emit ?k ?a ?b ?c)] |- _ => ne_fact (ne_emit k a b c)
  | _ : context [ne (getToken ?c)] |- _ => ne_fact (ne_get c)
  | _ : context [ne (error ?e ?c)] |- _ => ne_fact (ne_error e c)
  | _ : context [ne (count ?c)] |- _ => ne_fact (ne_count c)
  | _ : context [ne (with_loop ?x ?y ?z ?c)] |- _ => ne_fact (ne_loop x y z c)
  | _ : context [ne (error_if true ?e ?c)] |- _ => ne_fact (ne_error_true e c)
  | _ : context [ne (error_if ?b ?e ?c)] |- _ => ne_fact (ne_error_if b e c)
  end; lia.

Lemma grows_count c : grows c (count c).
Proof. exists []. cbn. symmetry. apply app_nil_r. Qed.
Lemma grows_loop x y z c : grows c (with_loop x y z c).
Proof. exists []. cbn. symmetry. apply app_nil_r. Qed.
Lemma grows_expect k e c : grows c (expect k e c).
Proof. unfold expect. destruct (token c =? k); [apply grows_get|apply local_grows, local_error]. Qed.
Lemma grows_emit k a b c : grows c (emit k a b c).
Proof. apply local_grows, local_emit. Qed.
Lemma grows_ref k v c : grows c (stack_ref k v c).
Proof. apply local_grows, local_ref. Qed.
Lemma grows_err e c : grows c (error e c).
Proof. apply local_grows, local_error. Qed.
Lemma grows_err_if b e c : grows c (error_if b e c).
Proof. apply local_grows, local_error_if. Qed.
Lemma grows_expr n f c t c' : expression n f c = Done t c' -> grows c c'.
Proof. apply (all_grow n). Qed.
Ltac grow := repeat match goal with
  | |- grows _ (data_op _ _ _) => unfold data_op
  | |- grows _ (simple_op _ _) => unfold simple_op
  | |- grows ?a ?a => apply grows_refl
  | H : grows ?a ?b |- grows ?a ?b => exact H
  | |- grows _ (getToken _) => eapply grows_trans; [|apply grows_get]
  | |- grows _ (count _) => eapply grows_trans; [|apply grows_count]
  | |- grows _ (with_loop _ _ _ _) => eapply grows_trans; [|apply grows_loop]
  | |- grows _ (expect _ _ _) => eapply grows_trans; [|apply grows_expect]
  | |- grows _ (emit _ _ _ _) => eapply grows_trans; [|apply grows_emit]
  | |- grows _ (stack_ref _ _ _) => eapply grows_trans; [|apply grows_ref]
  | |- grows _ (error _ _) => eapply grows_trans; [|apply grows_err]
  | |- grows _ (error_if _ _ _) => eapply grows_trans; [|apply grows_err_if]
  | H : expression _ _ ?d = Done _ ?b |- grows _ ?b => eapply grows_trans; [|exact (grows_expr _ _ _ _ _ H)]; clear H
  | H : grows ?d ?b |- grows _ ?b => eapply grows_trans; [|exact H]; clear H
  end.
Ltac invb H := first [apply binds_inv in H; destruct H as (?c & ?X & H)|apply binde_inv in H; destruct H as (?t & ?c & ?X & H)].

(** ** Break and Continue labels are restored *)

Definition goes (c c' : comp) : Prop := grows c c' /\ g_break c' = g_break c /\ g_continue c' = g_continue c.
Lemma goes_trans a b d : goes a b -> goes b d -> goes a d.
Proof. intros (G & B & C) (G' & B' & C'). split; [eapply grows_trans; eassumption|]. split; congruence. Qed.
Lemma brk_emit k a b c : g_break (emit k a b c) = g_break c.
Proof. unfold emit, error_if. cbv zeta. destruct (has8 k && _), (has16 k && _); reflexivity. Qed.
Lemma cont_emit k a b c : g_continue (emit k a b c) = g_continue c.
Proof. unfold emit, error_if. cbv zeta. destruct (has8 k && _), (has16 k && _); reflexivity. Qed.
Lemma brk_ref k v c : g_break (stack_ref k v c) = g_break c.
Proof. unfold stack_ref. destruct (_ && _); [destruct (_ <? _); [reflexivity|]|]; apply brk_emit. Qed.
Lemma cont_ref k v c : g_continue (stack_ref k v c) = g_continue c.
Proof. unfold stack_ref. destruct (_ && _); [destruct (_ <? _); [reflexivity|]|]; apply cont_emit. Qed.
Lemma brk_data k v c : g_break (data_op k v c) = g_break c.
Proof. apply brk_emit. Qed.
Lemma cont_data k v c : g_continue (data_op k v c) = g_continue c.
Proof. apply cont_emit. Qed.
Lemma brk_simple k c : g_break (simple_op k c) = g_break c.
Proof. apply brk_emit. Qed.
Lemma cont_simple k c : g_continue (simple_op k c) = g_continue c.
Proof. apply cont_emit. Qed.
Lemma brk_expect k e c : g_break (expect k e c) = g_break c.
Proof. unfold expect. destruct (_ =? _); reflexivity. Qed.
Lemma cont_expect k e c : g_continue (expect k e c) = g_continue c.
Proof. unfold expect. destruct (_ =? _); reflexivity. Qed.
Lemma brk_err_if b e c : g_break (error_if b e c) = g_break c.
Proof. destruct b; reflexivity. Qed.
Lemma cont_err_if b e c : g_continue (error_if b e c) = g_continue c.
Proof. destruct b; reflexivity. Qed.
Lemma brk_get c : g_break (getToken c) = g_break c.
Proof. reflexivity. Qed.
Lemma cont_get c : g_continue (getToken c) = g_continue c.
Proof. reflexivity. Qed.
Lemma brk_error e c : g_break (error e c) = g_break c.
Proof. reflexivity. Qed.
Lemma cont_error e c : g_continue (error e c) = g_continue c.
Proof. reflexivity. Qed.
Lemma brk_count c : g_break (count c) = g_break c.
Proof. reflexivity. Qed.
Lemma cont_count c : g_continue (count c) = g_continue c.
Proof. reflexivity. Qed.
Lemma brk_loop x y z c : g_break (with_loop x y z c) = y.
Proof. reflexivity. Qed.
Lemma cont_loop x y z c : g_continue (with_loop x y z c) = x.
Proof. reflexivity. Qed.
#[local] Hint Rewrite brk_emit cont_emit brk_ref cont_ref brk_data cont_data brk_simple cont_simple brk_expect cont_expect
  brk_err_if cont_err_if brk_get cont_get brk_error cont_error brk_count cont_count brk_loop cont_loop : marks.
Lemma expr_goes n f c t c' : expression n f c = Done t c' -> goes c c'.
Proof.
  intros X. pose proof (expression_adds _ _ _ _ _ X) as H.
  split; [apply (grows_expr _ _ _ _ _ X)|]. split; [apply (ad_brk _ _ H)|apply (ad_cont _ _ H)].
Qed.
Ltac gone := repeat match goal with
  | H : expression _ _ _ = Done _ _ |- _ => apply expr_goes in H
  end; repeat match goal with
  | H : goes _ _ |- _ => destruct H as (?G & ?B & ?C)
  end; try subst; split; [grow|split; autorewrite with marks in *; congruence].

Lemma consts_goes n : forall a b c c', case_constants n a b c = SDone c' -> goes c c'.
Proof.
  induction n as [|n IH]; intros a b c c' H; [discriminate|]. cbn [case_constants] in H. cbv zeta in H.
  destruct (is_constant _).
  - match type of H with (if ?b then _ else _) = _ => destruct b end; [apply IH in H; gone|apply sdone_inv in H; subst c'; gone].
  - destruct (_ =? tSTDFUNC); [discriminate|]. apply sdone_inv in H; subst c'; gone.
Qed.
Lemma leave_goes l c : goes c (continue_break l c).
Proof. unfold continue_break. destruct (l =? 0); [gone|]. cbv zeta. destruct (g_adjust c =? 0); gone. Qed.

Section Grow.
  Variable n : nat.
  Hypothesis HS : forall c c', statement n c = SDone c' -> goes c c'.
  Hypothesis HQ : forall c c', statements n c = SDone c' -> goes c c'.
  Hypothesis HC : forall a b c c', cases n a b c = SDone c' -> goes c c'.
  Lemma goes_assign o t v c c' : assignment n o t v c = SDone c' -> goes c c'.
  Proof using. unfold assignment. intros H. invb H. apply sdone_inv in H. gone. Qed.
  Lemma goes_any c c' : any_statement n (statement n) (statements n) (cases n) c = SDone c' -> goes c c'.
  Proof.
    unfold any_statement. cbv zeta. intros H.
    assert (E : goes c (emit oLINE 0 (tline (cur c)) c)) by gone.
    eapply goes_trans; [exact E|clear E]. set (c0 := emit _ _ _ c) in *. clearbody c0.
    destruct (is_word_var _); [apply goes_assign in H; gone|]. destruct (is_byte_var _); [apply goes_assign in H; gone|].
    destruct (is_long_var _). { unfold large_assignment in H. invb H. apply sdone_inv in H. gone. }
    destruct (token c0 =? tIF).
    { unfold if_statement in H. cbv zeta in H. invb H. destruct (negb _); [apply sdone_inv in H; gone|].
      invb H. apply HS in X0. destruct (_ =? tELSE); [|apply sdone_inv in H; gone]. invb H. apply HS in X1. apply sdone_inv in H. gone. }
    destruct (token c0 =? tCASE).
    { unfold case_statement in H. cbv zeta in H. invb H. invb H. apply HC in X0. apply sdone_inv in H. gone. }
    destruct (token c0 =? tREPEAT).
    { unfold repeat_statement in H. cbv beta iota zeta in H. invb H. apply HQ in X. invb H. apply sdone_inv in H. gone. }
    destruct (token c0 =? tWHILE).
    { unfold while_statement in H. cbv beta iota zeta in H. invb H. invb H. apply HS in X0. apply sdone_inv in H. gone. }
    destruct (token c0 =? tFOR).
    { unfold for_statement in H. cbv beta iota zeta in H. destruct (_ || _); [discriminate|]. destruct (negb _); [apply sdone_inv in H; gone|].
      invb H. apply goes_assign in X. destruct (negb _); [discriminate|]. invb H. invb H. apply HS in X1. apply sdone_inv in H. gone. }
    destruct (token c0 =? tBEGIN). { invb H. apply HQ in X. apply sdone_inv in H. gone. }
    destruct (existsb _ _); [discriminate|]. unfold standard_procedure in H. destruct (_ =? tSTDPROC); [|apply sdone_inv in H; gone].
    cbv zeta in H. assert (E : goes c0 (getToken c0)) by gone.
    destruct (_ =? txBREAK); [|destruct (_ =? txCONTINUE); [|discriminate]]; apply sdone_inv in H; subst;
      (eapply goes_trans; [exact E|apply leave_goes]).
  Qed.
  Lemma goes_one a b c c' : one_case n (statement n) (cases n) a b c = SDone c' -> goes c c'.
  Proof.
    unfold one_case. cbv zeta. intros H. destruct (_ =? tELSE).
    - invb H. apply HS in X. apply sdone_inv in H. subst c'.
      match goal with |- context [if ?b then _ else _] => destruct b end; gone.
    - invb H. apply consts_goes in X. invb H. apply HS in X0.
      match type of H with (if ?b then _ else _) = _ => destruct b end; [apply sdone_inv in H; gone|].
      match type of H with context [if ?b =? tSEMICOLON then _ else _] => destruct (b =? tSEMICOLON) end;
        (match type of H with (if ?b then _ else _) = _ => destruct b end; [apply sdone_inv in H; gone|apply HC in H; gone]).
  Qed.
End Grow.
Lemma all_goes n : (forall c c', statement n c = SDone c' -> goes c c') /\ (forall c c', statements n c = SDone c' -> goes c c') /\
  (forall a b c c', cases n a b c = SDone c' -> goes c c').
Proof.
  induction n as [|n (HS & HQ & HC)]; [repeat split; intros; discriminate|].
  repeat match goal with |- _ /\ _ => split end.
  - intros c c' H. rewrite (statement_S n) in H. eapply goes_any; eassumption.
  - intros c c' H. rewrite (statements_S n) in H. invb H. apply HS in X.
    destruct (_ =? tSEMICOLON); [apply HQ in H; gone|apply sdone_inv in H; gone].
  - intros a b c c' H. rewrite (cases_S n) in H. eapply goes_one; eassumption.
Qed.

(** ** Tokens *)

Definition wfk (c : comp) : Prop := Forall known (toks c).
Lemma wfk_app c ts r c' : wfk c -> toks c = ts ++ r -> r = toks c' -> wfk c'.
Proof. unfold wfk. intros H E <-. rewrite E in H. apply Forall_app in H. apply H. Qed.
Lemma wfk_same c c' : wfk c -> toks c' = toks c -> wfk c'.
Proof. unfold wfk. intros H ->. exact H. Qed.
Lemma wfk_cons c a c' : wfk c -> toks c = a :: toks c' -> wfk c'.
Proof. unfold wfk. intros H E. rewrite E in H. inversion H. assumption. Qed.
Lemma wfk_wfs c : wfk c -> wfs c.
Proof. unfold wfk, wfs. apply Forall_impl. intros t H. apply H. Qed.

Lemma toks_emit k a b c : toks (emit k a b c) = toks c.
Proof. apply toks_local, local_emit. Qed.
Lemma toks_data k v c : toks (data_op k v c) = toks c.
Proof. apply toks_emit. Qed.
Lemma toks_simple k c : toks (simple_op k c) = toks c.
Proof. apply toks_emit. Qed.
Lemma toks_ref k v c : toks (stack_ref k v c) = toks c.
Proof. apply toks_local, local_ref. Qed.
Lemma toks_count c : toks (count c) = toks c.
Proof. reflexivity. Qed.
Lemma toks_loop x y z c : toks (with_loop x y z c) = toks c.
Proof. reflexivity. Qed.
Lemma toks_error e c : toks (error e c) = toks c.
Proof. reflexivity. Qed.
Lemma toks_error_if b e c : toks (error_if b e c) = toks c.
Proof. destruct b; reflexivity. Qed.
Lemma token_toks c c' : toks c' = toks c -> token c' = token c.
Proof. unfold token, cur. intros ->. reflexivity. Qed.
Lemma cur_toks c c' : toks c' = toks c -> cur c' = cur c.
Proof. unfold cur. intros ->. reflexivity. Qed.
#[local] Hint Rewrite toks_emit toks_data toks_simple toks_ref toks_count toks_loop toks_error toks_error_if : strip.

Lemma take c k : token c = k -> k <> 0 -> toks c = cur c :: toks (getToken c) /\ tk (cur c) = k.
Proof.
  intros T N. rewrite <- T in N. destruct (at_token c N) as (t & r & A & B & C & D & _). rewrite A, C, D. split; [reflexivity|congruence].
Qed.
Lemma get_toks a b : toks a = toks b -> toks (getToken a) = toks (getToken b).
Proof. unfold getToken. cbn. intros ->. reflexivity. Qed.
Lemma expect_acc k e c : k <> 0 -> (ne (expect k e c) <= ne c)%nat -> expect k e c = getToken c /\ token c = k.
Proof.
  intros N H. unfold expect in *. destruct (token c =? k) eqn:E; [|rewrite ne_error in H; lia]. split; [reflexivity|lia].
Qed.
Lemma expr_acc n f c t c' : expression n f c = Done t c' -> (ne c' <= ne c)%nat -> wfk c ->
  exists ts e, toks c = ts ++ toks c' /\ gexpr ts e /\ elax f e = Some t.
Proof.
  intros X N W. pose proof (ne_expr _ _ _ _ _ X). apply (accepted_type _ _ _ _ _ X); [|apply wfk_wfs, W].
  apply ne_clean; [eapply grows_expr, X|lia].
Qed.
Lemma ne_goes a b : goes a b -> (ne a <= ne b)%nat.
Proof. intros (G & _). apply ne_grows, G. Qed.
Definition kind_ok (t : Z) : bool := is_word_var t || is_byte_var t || is_long_var t.
Lemma var_acc t : wf_tok t -> kind_ok (tk t) = true -> spells_var t (mkVar (var_type (tk t)) (sLevel (tsym t)) (vOffset (tsym t))).
Proof.
  intros W H. assert (K : exists k, ~ In k [xUnknown; xAnyOrdinal] /\ tk t = kind_of k /\ var_type (tk t) = k).
  { unfold kind_ok, is_word_var, is_byte_var, is_long_var in H.
    assert (E : In (tk t) [sINT; sWORD; sBOOLEAN; sSHORTINT; sSHORTWORD; sCHAR; sLONGINT; sLONGWORD]) by (cbn [In]; lia).
    cbn [In] in E. repeat (destruct E as [E|E]); [..|contradiction]; rewrite <- E; eexists;
      (split; [|split; [|reflexivity]]); try reflexivity; cbn; intuition discriminate. }
  destruct K as (k & N & K & V). rewrite V. unfold spells_var. cbn [vty vlev voff]. repeat match goal with |- _ /\ _ => split end; try reflexivity; try assumption.
  apply (proj2 W k N K).
Qed.

Definition allowed (brk cont : bool) (c : comp) : Prop := (g_break c <> 0 -> brk = true) /\ (g_continue c <> 0 -> cont = true).
Lemma allowed_same brk cont c c' : allowed brk cont c -> g_break c' = g_break c -> g_continue c' = g_continue c -> allowed brk cont c'.
Proof. unfold allowed. intros H -> ->. exact H. Qed.
Lemma allowed_goes brk cont c c' : allowed brk cont c -> goes c c' -> allowed brk cont c'.
Proof. intros H (_ & B & C). eapply allowed_same; eassumption. Qed.
Lemma allowed_all c : allowed true true c.
Proof. split; reflexivity. Qed.

Definition AccS (f : comp -> sres) : Prop := forall brk cont c c', f c = SDone c' -> (ne c' <= ne c)%nat -> wfk c -> allowed brk cont c ->
  exists o ts s, toks c = ts ++ toks c' /\ gstmt o ts s /\ lax_stmt brk cont s /\ (o = true -> token c' <> tELSE).
Definition AccQ (f : comp -> sres) : Prop := forall brk cont c c', token c <> 0 -> f c = SDone c' -> (ne c' <= ne c)%nat -> wfk c -> allowed brk cont c ->
  exists a ts ss, toks c = a :: ts ++ toks c' /\ cur c = a /\ gstmts ts ss /\ lax_stmts brk cont ss.
Definition AccC (f : Z -> Z -> comp -> sres) : Prop := forall brk cont x y c c', f x y c = SDone c' -> (ne c' <= ne c)%nat -> wfk c -> allowed brk cont c ->
  exists ts cs, toks c = ts ++ toks c' /\ gcases ts cs /\ lax_cases brk cont cs.

(* The number of errors does not change between c and c'. *)
Ltac chain := repeat match goal with
  | H : expression _ _ ?c = Done _ ?d |- _ => lazymatch goal with _ : (ne c <= ne d)%nat |- _ => fail | _ => pose proof (ne_expr _ _ _ _ _ H) end
  | H : goes ?c ?d |- _ => lazymatch goal with _ : (ne c <= ne d)%nat |- _ => fail | _ => pose proof (ne_goes _ _ H) end
  end; nes.
Ltac strip := autorewrite with strip in *.

Lemma consts_acc n : forall a b c c', case_constants n a b c = SDone c' -> (ne c' <= ne c)%nat -> wfk c ->
  exists ts ks, toks c = ts ++ toks c' /\ gconsts ts ks /\ forallb const_lax ks = true.
Proof.
  induction n as [|n IH]; intros a b c c' H N W; [discriminate|]. cbn [case_constants] in H. cbv zeta in H.
  assert (T0 : toks (simple_op oDUP c) = toks c) by apply toks_simple.
  rewrite (cur_toks _ _ T0), (token_toks _ _ T0) in H.
  destruct (is_constant (token c)) eqn:K.
  2: { destruct (_ =? tSTDFUNC); [discriminate|]. apply sdone_inv in H. subst c'. exfalso. chain. }
  assert (KZ : token c <> 0). { intros E. rewrite E in K. discriminate. }
  destruct (take c _ eq_refl KZ) as (TA & TK). assert (KN : known (cur c)) by (unfold wfk in W; rewrite TA in W; inversion W; assumption).
  set (v := tval (cur c)) in *.
  assert (V : (65535 <? v) = false).
  { destruct (65535 <? v); [exfalso|reflexivity].
    match type of H with (if ?b then _ else _) = _ => destruct b end; [apply consts_goes in H|apply sdone_inv in H; subst c']; chain. }
  rewrite V in H. cbn [error_if] in H. set (d := getToken _) in H.
  assert (TD : toks d = toks (getToken c)). { unfold d. apply get_toks. strip. reflexivity. }
  assert (S : exists k, spells_const (cur c) k /\ const_lax k = true).
  { destruct KN as ((KB & _) & KR & KS). unfold is_constant in K. cbn [existsb] in K.
    destruct (token c =? tINT_CONST) eqn:E1. { exists (KInt v). split; [split; [lia|reflexivity]|cbn; lia]. }
    destruct (token c =? tCHAR_CONST) eqn:E2. { exists (KChar v). split; [split; [lia|reflexivity]|cbn; lia]. }
    destruct (token c =? tBOOLEAN_CONST) eqn:E3. { exists (KBool false). split; [split; [lia|]|reflexivity]. fold v in KB |- *. specialize (KB ltac:(lia)). lia. }
    exfalso. lia. }
  destruct S as (k & S & CL).
  assert (ND : (ne c <= ne d)%nat) by (unfold d; nes).
  destruct (token d =? tCOMMA) eqn:E.
  - destruct (take d _ ltac:(apply Z.eqb_eq, E) ltac:(discriminate)) as (TA' & TK').
    assert (T2 : toks (getToken (data_op oJEQU a d)) = toks (getToken d)) by (apply get_toks; strip; reflexivity).
    apply IH in H.
    + destruct H as (ts & ks & A & B & CC). exists (cur c :: cur d :: ts), (k :: ks). split; [|split].
      * cbn [app]. rewrite TA. f_equal. rewrite <- TD, TA'. f_equal. rewrite <- T2. exact A.
      * apply gs_consts; assumption.
      * cbn. rewrite CL, CC. reflexivity.
    + chain.
    + eapply wfk_same; [|exact T2]. eapply (wfk_app _ [cur c; cur d]); [exact W| |reflexivity]. rewrite TA, <- TD, TA'. reflexivity.
  - apply sdone_inv in H. subst c'. exists [cur c], [k]. split; [|split].
    + strip. rewrite TD. exact TA.
    + constructor. exact S.
    + cbn. rewrite CL. reflexivity.
Qed.

Section Acc.
  Variable n : nat.
  Hypothesis HS : AccS (statement n).
  Hypothesis HQ : AccQ (statements n).
  Hypothesis HC : AccC (cases n).
  Let GS := proj1 (all_goes n).
  Let GQ := proj1 (proj2 (all_goes n)).
  Let GC := proj2 (proj2 (all_goes n)).

  (** x := e *)
  Lemma acc_assign o t v c c' : assignment n o t v c = SDone c' -> (ne c' <= ne c)%nat -> wfk c ->
    exists ts e, toks c = cur c :: ts ++ toks c' /\ tk (cur c) = tASSIGN /\ gexpr ts e /\ elax t e <> None.
  Proof using.
    unfold assignment. intros H N W. invb H. apply sdone_inv in H. subst c'.
    assert (N1 : (ne (expect tASSIGN eASSIGN c) <= ne c)%nat) by chain.
    apply expect_acc in N1; [|discriminate]. destruct N1 as (E & T). rewrite E in X.
    destruct (take c _ T ltac:(discriminate)) as (TA & TK).
    destruct (expr_acc _ _ _ _ _ X) as (ts & e & A & B & D); [chain|eapply wfk_cons; [exact W|exact TA]|].
    exists ts, e. strip. split; [rewrite TA, A at 1; reflexivity|]. split; [exact TK|]. split; [exact B|]. rewrite D. discriminate.
  Qed.
  Lemma acc_var c c' o : kind_ok (token c) = true -> assignment n o (var_type (token c)) (tsym (cur c)) (getToken c) = SDone c' ->
    (ne c' <= ne c)%nat -> wfk c -> exists t a ts x e, toks c = t :: a :: ts ++ toks c' /\ spells_var t x /\ tk a = tASSIGN /\ gexpr ts e /\
      elax (vty x) e <> None /\ vty x = var_type (token c).
  Proof using.
    intros K H N W. assert (KZ : token c <> 0). { intros E. rewrite E in K. discriminate. }
    destruct (take c _ eq_refl KZ) as (TA & TK).
    apply acc_assign in H; [|chain|eapply wfk_cons; [exact W|exact TA]]. destruct H as (ts & e & A & B & G & D).
    exists (cur c), (cur (getToken c)), ts, (mkVar (var_type (tk (cur c))) (sLevel (tsym (cur c))) (vOffset (tsym (cur c)))), e.
    split; [rewrite TA, A at 1; reflexivity|]. split.
    { apply var_acc; [|rewrite TK; exact K]. unfold wfk in W. rewrite TA in W. inversion W as [|? ? Kn ?]. apply Kn. }
    split; [exact B|]. split; [exact G|]. cbn [vty]. rewrite TK. split; [exact D|reflexivity].
  Qed.
  Lemma acc_if : AccS (fun c => if token c =? tIF then if_statement n (statement n) c else SNoFuel).
  Proof.
    intros brk cont c c' H N W AL. destruct (token c =? tIF) eqn:T0; [|discriminate].
    destruct (take c tIF ltac:(lia) ltac:(discriminate)) as (TA & TK).
    unfold if_statement in H. cbv zeta in H. invb H.
    assert (T1 : toks (getToken (count c)) = toks (getToken c)) by reflexivity.
    pose proof (expr_goes _ _ _ _ _ X) as G0.
    destruct (negb (token c0 =? tTHEN)) eqn:T2. { exfalso. apply sdone_inv in H. subst c'. chain. }
    destruct (take c0 tTHEN ltac:(lia) ltac:(discriminate)) as (TB & TKB).
    invb H. pose proof (GS _ _ X0) as G1.
    assert (NN : (ne c1 <= ne c')%nat).
    { destruct (token c1 =? tELSE); [invb H; pose proof (GS _ _ X1)|]; apply sdone_inv in H; subst c'; chain. }
    destruct (expr_acc _ _ _ _ _ X) as (ts & e & A & B & D); [chain|eapply wfk_cons; [exact W|rewrite T1; exact TA]|].
    rewrite T1 in A. assert (W0 : wfk c0) by (eapply (wfk_app _ (cur c :: ts)); [exact W|rewrite TA, A; reflexivity|reflexivity]).
    assert (W1 : wfk (getToken c0)) by (eapply wfk_cons; eassumption).
    destruct (HS brk cont _ _ X0) as (o & us & s & A1 & B1 & L1 & O1); [chain|eapply wfk_same; [exact W1|strip; reflexivity]| |].
    { eapply allowed_goes; [exact AL|]. gone. }
    strip. assert (W2 : wfk c1) by (eapply wfk_app; [exact W1|exact A1|reflexivity]).
    destruct (token c1 =? tELSE) eqn:T3.
    - destruct (take c1 tELSE ltac:(lia) ltac:(discriminate)) as (TC & TKC). invb H. pose proof (GS _ _ X1) as G2. apply sdone_inv in H. subst c'.
      assert (T4 : toks (getToken (count c1)) = toks (getToken c1)) by reflexivity.
      destruct (HS brk cont _ _ X1) as (o2 & vs & s2 & A2 & B2 & L2 & O2); [chain|eapply wfk_same; [eapply wfk_cons; [exact W2|exact TC]|strip; exact T4]| |].
      { eapply allowed_goes; [exact AL|]. gone. }
      strip. rewrite T4 in A2. destruct o; [destruct (O1 eq_refl); lia|].
      exists o2, (cur c :: ts ++ cur c0 :: us ++ cur c1 :: vs), (SIfElse e s s2). split; [|split; [|split]].
      + rewrite TA, A, TB, A1, TC, A2. cbn [app]. rewrite <- !app_assoc. cbn [app]. rewrite <- !app_assoc. reflexivity.
      + apply gs_ifelse; assumption.
      + cbn. rewrite D. split; [discriminate|]. split; assumption.
      + intros E. rewrite token_data. apply O2, E.
    - apply sdone_inv in H. subst c'. strip.
      exists true, (cur c :: ts ++ cur c0 :: us), (SIf e s). split; [|split; [|split]].
      + rewrite TA, A, TB, A1. cbn [app]. rewrite <- !app_assoc. reflexivity.
      + eapply gs_if; eassumption.
      + cbn. rewrite D. split; [discriminate|]. assumption.
      + intros _. rewrite token_data. lia.
  Qed.
  Lemma acc_while : AccS (fun c => if token c =? tWHILE then while_statement n (statement n) c else SNoFuel).
  Proof.
    intros brk cont c c' H N W AL. destruct (token c =? tWHILE) eqn:T0; [|discriminate].
    destruct (take c tWHILE ltac:(lia) ltac:(discriminate)) as (TA & TK).
    unfold while_statement in H. cbv beta iota zeta in H. invb H. invb H. apply sdone_inv in H. subst c'.
    pose proof (GS _ _ X0) as G1.
    match type of X with expression _ _ (data_op _ _ ?d) = _ => assert (T1 : toks d = toks (getToken c)) by reflexivity; assert (N1 : ne d = ne c) by reflexivity end.
    match type of X0 with statement _ (expect ?k ?e ?d) = _ => assert (EX : expect k e d = getToken d /\ token d = k) by (apply expect_acc; [discriminate|chain]); set (d0 := d) in * end.
    destruct EX as (EX & T2). rewrite EX in X0. destruct (take _ _ T2 ltac:(discriminate)) as (TB & TKB).
    assert (TD : toks d0 = toks c0) by (unfold d0; strip; reflexivity). assert (ND : (ne c0 <= ne d0)%nat) by (unfold d0; nes).
    rewrite EX in G1.
    destruct (expr_acc _ _ _ _ _ X) as (ts & e & A & B & D); [chain|eapply wfk_cons; [exact W|strip; rewrite T1; exact TA]|].
    strip. rewrite T1 in A. assert (W0 : wfk d0) by (eapply (wfk_app _ (cur c :: ts)); [exact W|rewrite TA, A; reflexivity|rewrite TD; reflexivity]).
    destruct (HS true true _ _ X0) as (o & us & s & A1 & B1 & L1 & O1); [chain|eapply wfk_cons; eassumption|apply allowed_all|].
    exists o, (cur c :: ts ++ cur d0 :: us), (SWhile e s). strip. split; [|split; [|split]].
    - rewrite TA, A, <- TD, TB, A1. cbn [app]. rewrite <- !app_assoc. reflexivity.
    - apply gs_while; assumption.
    - cbn. rewrite D. split; [discriminate|assumption].
    - intros E. erewrite token_toks; [apply O1, E|]. strip. reflexivity.
  Qed.
  Lemma acc_repeat : AccS (fun c => if token c =? tREPEAT then repeat_statement n (statements n) c else SNoFuel).
  Proof.
    intros brk cont c c' H N W AL. destruct (token c =? tREPEAT) eqn:T0; [|discriminate].
    unfold repeat_statement in H. cbv beta iota zeta in H. invb H. invb H. apply sdone_inv in H. subst c'.
    pose proof (GQ _ _ X) as G1.
    match type of X with statements _ ?d = _ => assert (T1 : toks d = toks c) by (strip; reflexivity); set (d0 := d) in * end.
    assert (N1 : (ne c <= ne d0)%nat) by (unfold d0; nes).
    match type of X0 with expression _ _ (expect ?k ?e ?d) = _ => assert (EX : expect k e d = getToken d /\ token d = k) by (apply expect_acc; [discriminate|chain]) end.
    destruct EX as (EX & T2). rewrite EX in X0. destruct (take _ _ T2 ltac:(discriminate)) as (TB & TKB).
    destruct (HQ true true _ _ ltac:(rewrite (token_toks _ _ T1); intros E; rewrite E in T0; discriminate) X) as (a & us & ss & A & CA & B & L1);
      [chain|eapply wfk_same; eassumption|apply allowed_all|].
    rewrite T1 in A. rewrite (cur_toks _ _ T1) in CA.
    assert (W0 : wfk c0) by (eapply (wfk_app _ (a :: us)); [exact W|rewrite A; reflexivity|reflexivity]).
    destruct (expr_acc _ _ _ _ _ X0) as (ts & e & A1 & B1 & D); [chain|eapply wfk_cons; eassumption|].
    exists false, (a :: us ++ cur c0 :: ts), (SRepeat ss e). strip. split; [|split; [|split]].
    - rewrite A, TB, A1. cbn [app]. rewrite <- !app_assoc. reflexivity.
    - apply gs_repeat; try assumption. rewrite <- CA. unfold token in T0. lia.
    - cbn. rewrite D. split; [assumption|discriminate].
    - discriminate.
  Qed.
  Lemma acc_block : AccS (fun c => if token c =? tBEGIN then binds (statements n c) (fun c => SDone (expect tEND eEND c)) else SNoFuel).
  Proof.
    intros brk cont c c' H N W AL. destruct (token c =? tBEGIN) eqn:T0; [|discriminate].
    invb H. apply sdone_inv in H. subst c'. pose proof (GQ _ _ X) as G1.
    assert (EX : expect tEND eEND c0 = getToken c0 /\ token c0 = tEND) by (apply expect_acc; [discriminate|chain]).
    destruct EX as (EX & T2). rewrite EX in *. destruct (take _ _ T2 ltac:(discriminate)) as (TB & TKB).
    destruct (HQ brk cont _ _ ltac:(intros E; rewrite E in T0; discriminate) X) as (a & us & ss & A & CA & B & L1); [chain|assumption|assumption|].
    exists false, (a :: us ++ [cur c0]), (SBlock ss). split; [|split; [|split]].
    - rewrite A, TB. cbn [app]. rewrite <- !app_assoc. reflexivity.
    - apply gs_block; try assumption. rewrite <- CA. unfold token in T0. lia.
    - exact L1.
    - discriminate.
  Qed.
  Lemma acc_case : AccS (fun c => if token c =? tCASE then case_statement n (cases n) c else SNoFuel).
  Proof.
    intros brk cont c c' H N W AL. destruct (token c =? tCASE) eqn:T0; [|discriminate].
    destruct (take c tCASE ltac:(lia) ltac:(discriminate)) as (TA & TK).
    unfold case_statement in H. cbv beta iota zeta in H. invb H. invb H. apply sdone_inv in H. subst c'.
    pose proof (expr_goes _ _ _ _ _ X) as G0. pose proof (GC _ _ _ _ X0) as G1.
    match type of X with expression _ _ ?d = _ => assert (T1 : toks d = toks (getToken c)) by reflexivity; assert (N1 : ne d = ne c) by reflexivity end.
    assert (EX : expect tOF eOF c0 = getToken c0 /\ token c0 = tOF) by (apply expect_acc; [discriminate|chain]).
    destruct EX as (EX & T2). rewrite EX in *. destruct (take _ _ T2 ltac:(discriminate)) as (TB & TKB).
    destruct (expr_acc _ _ _ _ _ X) as (ts & e & A & B & D); [chain|eapply wfk_cons; [exact W|rewrite T1; exact TA]|].
    rewrite T1 in A. assert (W0 : wfk c0) by (eapply (wfk_app _ (cur c :: ts)); [exact W|rewrite TA, A; reflexivity|reflexivity]).
    match type of X0 with cases _ _ _ ?d = _ => assert (T3 : toks d = toks (getToken c0)) by reflexivity; assert (N3 : ne d = ne c0) by reflexivity end.
    destruct (HC brk cont _ _ _ _ X0) as (us & cs & A1 & B1 & L1); [chain|eapply wfk_cons; [exact W0|rewrite T3; exact TB]| |].
    { eapply allowed_goes; [exact AL|]. clear - G0. gone. }
    rewrite T3 in A1.
    exists false, (cur c :: ts ++ cur c0 :: us), (SCase e cs). strip. split; [|split; [|split]].
    - rewrite TA, A, TB, A1. cbn [app]. rewrite <- !app_assoc. reflexivity.
    - apply gs_case; assumption.
    - cbn. rewrite D. split; [discriminate|assumption].
    - discriminate.
  Qed.
  Lemma acc_for : AccS (fun c => if token c =? tFOR then for_statement n (statement n) c else SNoFuel).
  Proof.
    intros brk cont c c' H N W AL. destruct (token c =? tFOR) eqn:T0; [|discriminate].
    destruct (take c tFOR ltac:(lia) ltac:(discriminate)) as (TA & TK).
    unfold for_statement in H. cbv beta iota zeta in H.
    set (d0 := getToken (with_loop _ _ _ _)) in H. assert (T1 : toks d0 = toks (getToken c)) by reflexivity. assert (N1 : ne d0 = ne c) by reflexivity.
    destruct (_ || _) in H; [discriminate|]. destruct (negb _) eqn:K in H. { exfalso. apply sdone_inv in H. subst c'. chain. }
    invb H. pose proof (goes_assign _ _ _ _ _ _ X) as G0.
    destruct (negb _) eqn:T2 in H; [discriminate|]. invb H. pose proof (expr_goes _ _ _ _ _ X0) as G1. invb H. pose proof (GS _ _ X1) as G2. apply sdone_inv in H. subst c'.
    match type of X1 with statement _ (data_op _ _ (stack_ref _ _ (simple_op _ (data_op _ _ (expect ?k ?e ?d))))) = _ =>
      assert (EX : expect k e d = getToken d /\ token d = k) by (apply expect_acc; [discriminate|chain]) end.
    destruct EX as (EX & T3). rewrite EX in *.
    assert (N2 : (ne (getToken c1) <= ne c2)%nat) by chain. assert (N3 : (ne c1 <= ne (getToken c0))%nat) by chain.
    assert (N4 : (ne c0 <= ne d0)%nat) by chain. rewrite ne_get in N2, N3.
    match type of X1 with statement _ ?d = _ => assert (T4 : toks d = toks (getToken c1)) by (strip; reflexivity); assert (N5 : (ne c2 <= ne d)%nat) by chain; set (d1 := d) in * end.
    assert (T5 : kind_ok (token d0) = true) by (unfold kind_ok, is_word_var, is_byte_var, is_long_var in *; lia).
    assert (W1 : wfk d0) by (eapply wfk_cons; [exact W|rewrite T1; exact TA]).
    destruct (acc_var _ _ _ T5 X N4 W1) as (tv & b & ts & x & e1 & A & V & TB & GE & LE & TY). rewrite T1 in A.
    assert (T6 : token c0 = tDOWNTO \/ token c0 = tTO) by lia.
    assert (TCD : toks c0 = cur c0 :: toks (getToken c0) /\ tk (cur c0) = token c0).
    { apply take; [reflexivity|]. intros E. rewrite E in T6. destruct T6; discriminate. }
    destruct TCD as (TC & TKC).
    assert (W2 : wfk c0) by (eapply (wfk_app _ (cur c :: tv :: b :: ts)); [exact W|rewrite TA, A; reflexivity|reflexivity]).
    destruct (expr_acc _ _ _ _ _ X0 N3) as (us & e2 & A2 & B2 & D2); [eapply wfk_cons; [exact W2|exact TC]|].
    destruct (take _ _ T3 ltac:(discriminate)) as (TE & TKE).
    assert (W3 : wfk c1) by (eapply (wfk_app (getToken c0)); [eapply wfk_cons; [exact W2|exact TC]|exact A2|reflexivity]).
    destruct (HS true true _ _ X1) as (o & vs & s & A3 & B3 & L3 & O3); [lia|eapply wfk_cons; [exact W3|rewrite T4; exact TE]|apply allowed_all|].
    rewrite T4 in A3.
    exists o, (cur c :: tv :: b :: ts ++ cur c0 :: us ++ cur c1 :: vs), (SFor x (token c0 =? tDOWNTO) e1 e2 s). strip. split; [|split; [|split]].
    - rewrite TA, A, TC, A2, TE, A3. cbn [app]. rewrite <- !app_assoc. cbn [app]. rewrite <- !app_assoc. reflexivity.
    - apply gs_for; try assumption. destruct T6 as [E|E]; rewrite E; rewrite TKC, E; reflexivity.
    - cbn. split; [|split; [exact LE|split; [|exact L3]]].
      + rewrite TY. clear - K. unfold is_long_var in K.
        assert (E : In (token d0) [sINT; sWORD; sSHORTINT; sSHORTWORD; sLONGINT; sLONGWORD]) by (cbn [In]; lia).
        cbn [In] in E. repeat (destruct E as [E|E]); [..|contradiction]; rewrite <- E; cbn; intuition discriminate.
      + rewrite TY, D2. discriminate.
    - intros E. erewrite token_toks; [apply O3, E|]. strip. reflexivity.
  Qed.
  Lemma acc_any : AccS (statement (S n)).
  Proof.
    intros brk cont c c' H N W AL. rewrite (statement_S n) in H. unfold any_statement in H. cbv zeta in H.
    assert (T : toks (emit oLINE 0 (tline (cur c)) c) = toks c) by apply toks_emit. rewrite <- T.
    pose proof (ne_emit oLINE 0 (tline (cur c)) c) as N0. assert (AL0 := allowed_same _ _ c (emit oLINE 0 (tline (cur c)) c) AL (brk_emit _ _ _ _) (cont_emit _ _ _ _)).
    assert (W0 : wfk (emit oLINE 0 (tline (cur c)) c)) by (eapply wfk_same; eassumption).
    set (c0 := emit _ _ _ c) in *. clearbody c0. assert (N1 : (ne c' <= ne c0)%nat) by lia. clear c N W T N0 AL. rename c0 into c.
    destruct (is_word_var (token c)) eqn:K1.
    { assert (K : kind_ok (token c) = true) by (unfold kind_ok; rewrite K1; reflexivity).
      destruct (acc_var _ _ _ K H N1 W0) as (t & a & ts & x & e & A & V & TA & GE & LE & _).
      exists false, (t :: a :: ts), (SAssign x e). split; [exact A|]. split; [apply gs_assign; assumption|]. split; [exact LE|discriminate]. }
    destruct (is_byte_var (token c)) eqn:K2.
    { assert (K : kind_ok (token c) = true) by (unfold kind_ok; rewrite K2, orb_true_r; reflexivity).
      destruct (acc_var _ _ _ K H N1 W0) as (t & a & ts & x & e & A & V & TA & GE & LE & _).
      exists false, (t :: a :: ts), (SAssign x e). split; [exact A|]. split; [apply gs_assign; assumption|]. split; [exact LE|discriminate]. }
    destruct (is_long_var (token c)) eqn:K3.
    { assert (K : kind_ok (token c) = true) by (unfold kind_ok; rewrite K3, orb_true_r; reflexivity).
      unfold large_assignment in H. invb H. apply sdone_inv in H. subst c'.
      assert (X' : assignment n oSTS (var_type (token c)) (tsym (cur c)) (getToken c) = SDone (stack_ref oSTS (tsym (cur c)) c0)) by (unfold assignment; rewrite X; reflexivity).
      assert (KZ : token c <> 0). { intros E. rewrite E in K. discriminate. }
      assert (EX : expect tASSIGN eASSIGN (getToken c) = getToken (getToken c) /\ token (getToken c) = tASSIGN) by (apply expect_acc; [discriminate|chain]).
      destruct EX as (EX & T2). rewrite EX in X. destruct (take c _ eq_refl KZ) as (TA & TK). destruct (take _ _ T2 ltac:(discriminate)) as (TB & TKB).
      destruct (expr_acc _ _ _ _ _ X) as (ts & e & A & B & D); [chain|eapply wfk_cons; [eapply wfk_cons; [exact W0|exact TA]|exact TB]|].
      exists false, (cur c :: cur (getToken c) :: ts), (SAssign (mkVar (var_type (tk (cur c))) (sLevel (tsym (cur c))) (vOffset (tsym (cur c)))) e).
      strip. split; [rewrite TA, TB, A at 1; reflexivity|]. split; [|split].
      - apply gs_assign; [|exact TKB|exact B]. apply var_acc; [|rewrite TK; exact K]. unfold wfk in W0. rewrite TA in W0. inversion W0 as [|? ? Kn ?]. apply Kn.
      - cbn. rewrite TK, D. discriminate.
      - discriminate. }
    destruct (token c =? tIF) eqn:E1. { apply (acc_if brk cont c c'); try assumption. rewrite E1. exact H. }
    destruct (token c =? tCASE) eqn:E2. { apply (acc_case brk cont c c'); try assumption. rewrite E2. exact H. }
    destruct (token c =? tREPEAT) eqn:E3. { apply (acc_repeat brk cont c c'); try assumption. rewrite E3. exact H. }
    destruct (token c =? tWHILE) eqn:E4. { apply (acc_while brk cont c c'); try assumption. rewrite E4. exact H. }
    destruct (token c =? tFOR) eqn:E5. { apply (acc_for brk cont c c'); try assumption. rewrite E5. exact H. }
    destruct (token c =? tBEGIN) eqn:E6. { apply (acc_block brk cont c c'); try assumption. rewrite E6. exact H. }
    destruct (existsb _ _); [discriminate|]. unfold standard_procedure in H.
    destruct (token c =? tSTDPROC) eqn:E7.
    2: { apply sdone_inv in H. subst c'. exists false, [], SEmpty. split; [reflexivity|]. split; [constructor|]. split; [exact I|discriminate]. }
    destruct (take c tSTDPROC ltac:(lia) ltac:(discriminate)) as (TA & TK). cbv zeta in H.
    destruct (_ =? txBREAK) eqn:E8; [|destruct (_ =? txCONTINUE) eqn:E9; [|discriminate]]; apply sdone_inv in H; subst c'; unfold continue_break in *.
    - destruct (g_break (getToken c) =? 0) eqn:Z. { exfalso. chain. }
      exists false, [cur c], SBreak. split; [|split; [apply gs_break; [assumption|lia]|split; [apply AL0; rewrite brk_get in Z; lia|discriminate]]].
      rewrite TA at 1. cbn [app]. f_equal. cbv zeta. destruct (g_adjust _ =? 0); strip; reflexivity.
    - destruct (g_continue (getToken c) =? 0) eqn:Z. { exfalso. chain. }
      exists false, [cur c], SContinue. split; [|split; [apply gs_continue; [assumption|lia]|split; [apply AL0; rewrite cont_get in Z; lia|discriminate]]].
      rewrite TA at 1. cbn [app]. f_equal. cbv zeta. destruct (g_adjust _ =? 0); strip; reflexivity.
  Qed.
  Lemma acc_seq : AccQ (statements (S n)).
  Proof.
    intros brk cont c c' Z H N W AL. rewrite (statements_S n) in H. invb H. pose proof (GS _ _ X) as G.
    destruct (take c _ eq_refl Z) as (TA & TK).
    assert (NN : (ne c0 <= ne c')%nat). { destruct (_ =? tSEMICOLON); [apply GQ in H|apply sdone_inv in H; subst c']; chain. }
    assert (W0 : wfk (getToken c)) by (eapply wfk_cons; eassumption).
    destruct (HS brk cont _ _ X) as (o & ts & s & A & B & L1 & _); [chain|exact W0|exact AL|].
    destruct (token c0 =? tSEMICOLON) eqn:E.
    - destruct (HQ brk cont _ _ ltac:(intros E'; rewrite E' in E; discriminate) H) as (a & us & ss & A1 & CA & B1 & L2); [chain|eapply wfk_app; [exact W0|exact A|reflexivity]| |].
      { eapply allowed_goes; [exact AL|]. clear -G. gone. }
      exists (cur c), (ts ++ a :: us), (SMore s ss). split; [rewrite TA, A, A1; rewrite <- app_assoc; reflexivity|]. split; [reflexivity|].
      split; [|split; assumption]. eapply gs_more; [exact B| |exact B1]. rewrite <- CA. unfold token in E. lia.
    - apply sdone_inv in H. subst c'. exists (cur c), ts, (SOne s). split; [rewrite TA, A; reflexivity|]. split; [reflexivity|]. split; [eapply gs_one; exact B|exact L1].
  Qed.
  Lemma acc_one : AccC (cases (S n)).
  Proof.
    intros brk cont x y c c' H N W AL. rewrite (cases_S n) in H. unfold one_case in H. cbv zeta in H.
    change (token (count c)) with (token c) in H.
    destruct (token c =? tELSE) eqn:E.
    - destruct (take c tELSE ltac:(lia) ltac:(discriminate)) as (TA & TK). invb H. pose proof (GS _ _ X) as G. apply sdone_inv in H.
      assert (T1 : toks (data_op oLABEL x (getToken (count c))) = toks (getToken c)) by (strip; reflexivity).
      assert (NN : (ne c0 <= ne c')%nat). { subst c'. destruct (_ =? tSEMICOLON); chain. }
      assert (N1 : ne (getToken (count c)) = ne c) by reflexivity.
      assert (W0 : wfk (getToken c)) by (eapply wfk_cons; eassumption).
      destruct (HS brk cont _ _ X) as (o & us & s & A & B & L1 & _); [chain|eapply wfk_same; eassumption| |].
      { eapply allowed_goes; [exact AL|]. clear. gone. }
      rewrite T1 in A.
      destruct (token c0 =? tSEMICOLON) eqn:E1.
      + destruct (take c0 tSEMICOLON ltac:(lia) ltac:(discriminate)) as (TB & TKB). subst c'.
        assert (EX : expect tEND eEND (getToken c0) = getToken (getToken c0) /\ token (getToken c0) = tEND) by (apply expect_acc; [discriminate|chain]).
        destruct EX as (EX & T2). rewrite EX. destruct (take _ _ T2 ltac:(discriminate)) as (TC & TKC).
        exists (cur c :: us ++ [cur c0; cur (getToken c0)]), (CElse s). split; [|split; [eapply gs_else_semi; eassumption|exact L1]].
        rewrite TA, A, TB, TC. cbn [app]. rewrite <- app_assoc. reflexivity.
      + subst c'. assert (EX : expect tEND eEND c0 = getToken c0 /\ token c0 = tEND) by (apply expect_acc; [discriminate|chain]).
        destruct EX as (EX & T2). rewrite EX. destruct (take _ _ T2 ltac:(discriminate)) as (TC & TKC).
        exists (cur c :: us ++ [cur c0]), (CElse s). split; [|split; [eapply gs_else; eassumption|exact L1]].
        rewrite TA, A, TC. cbn [app]. rewrite <- app_assoc. reflexivity.
    - invb H. pose proof (consts_goes _ _ _ _ _ X) as G0. invb H. pose proof (GS _ _ X0) as G1.
      match type of X with case_constants _ _ _ ?d = _ => assert (T1 : toks d = toks c) by (strip; reflexivity); assert (N1 : (ne c <= ne d)%nat) by (rewrite <- (ne_data oLABEL x); apply Nat.le_refl); set (d0 := d) in * end.
      assert (NN : (ne c1 <= ne c')%nat).
      { destruct (_ && _); [apply sdone_inv in H; subst c'; chain|].
        match type of H with context [if ?b =? tSEMICOLON then _ else _] => destruct (b =? tSEMICOLON) end;
        (match type of H with (if ?b then _ else _) = _ => destruct b end; [apply sdone_inv in H; subst c'|apply GC in H]; chain). }
      assert (EX : expect tCOLON eCOLON c0 = getToken c0 /\ token c0 = tCOLON) by (apply expect_acc; [discriminate|chain]).
      destruct EX as (EX & T2). rewrite EX in *. destruct (take _ _ T2 ltac:(discriminate)) as (TB & TKB).
      assert (N2 : (ne c0 <= ne d0)%nat) by chain.
      assert (W0 : wfk d0) by (eapply wfk_same; eassumption).
      destruct (consts_acc _ _ _ _ _ X N2 W0) as (ts & ks & A & B & CL). rewrite T1 in A.
      assert (W1 : wfk c0) by (eapply (wfk_app c); [exact W|exact A|reflexivity]).
      match type of X0 with statement _ ?d = _ => assert (T3 : toks d = toks (getToken c0)) by (strip; reflexivity);
        assert (N3 : (ne c0 <= ne d)%nat) by (rewrite <- (ne_data oLABEL); apply Nat.le_refl);
        assert (AL1 : allowed brk cont d) by (eapply allowed_goes; [exact AL|]; unfold d0 in G0; clear -G0; gone);
        set (d1 := d) in * end.
      assert (N5 : (ne d0 <= ne c0)%nat) by (apply ne_goes, G0).
      destruct (HS brk cont _ _ X0) as (o & us & s & A1 & B1 & L1 & _);
        [lia|eapply wfk_cons; [exact W1|rewrite T3; exact TB]|exact AL1|].
      rewrite T3 in A1. pose proof (ne_goes _ _ G1) as N6.
      assert (W2 : wfk c1) by (eapply (wfk_app (getToken c0)); [eapply wfk_cons; [exact W1|exact TB]|exact A1|reflexivity]).
      set (d2 := data_op oJMP y c1) in *. assert (T4 : toks d2 = toks c1) by apply toks_data. pose proof (ne_data oJMP y c1) as N7. fold d2 in N7.
      rewrite (token_toks _ _ T4) in H.
      destruct (negb (token c1 =? tSEMICOLON) && negb (token c1 =? tEND)) eqn:E1. { exfalso. apply sdone_inv in H. subst c'. rewrite ne_error in N. lia. }
      destruct (token c1 =? tSEMICOLON) eqn:E2.
      + destruct (take c1 tSEMICOLON ltac:(lia) ltac:(discriminate)) as (TC & TKC).
        assert (T5 : toks (getToken d2) = toks (getToken c1)) by (apply get_toks, T4).
        destruct (token (getToken d2) =? tEND) eqn:E3.
        * apply sdone_inv in H. subst c'. assert (T6 : token (getToken c1) = tEND) by (rewrite <- (token_toks _ _ T5); lia).
          destruct (take _ _ T6 ltac:(discriminate)) as (TD & TKD).
          exists (ts ++ cur c0 :: us ++ [cur c1; cur (getToken c1)]), (CCase ks s CEnd). split; [|split; [eapply gs_last_semi; eassumption|cbn; auto]].
          match goal with |- _ = _ ++ toks (getToken (data_op _ _ ?d)) => rewrite (get_toks _ d (toks_data _ _ d)), (get_toks _ _ T5) end.
          rewrite A, TB, A1, TC, TD. rewrite <- !app_assoc. cbn [app]. rewrite <- !app_assoc. reflexivity.
        * destruct (HC brk cont _ _ _ _ H) as (vs & cs & A2 & B2 & L2).
          { rewrite ne_get. lia. }
          { eapply wfk_cons; [exact W2|rewrite T5; exact TC]. }
          { eapply allowed_goes; [exact AL1|]. unfold d2. clear -G1. gone. }
          rewrite T5 in A2.
          exists (ts ++ cur c0 :: us ++ cur c1 :: vs), (CCase ks s cs). split; [|split; [eapply gs_cases; eassumption|cbn; auto]].
          rewrite A, TB, A1, TC, A2. rewrite <- !app_assoc. cbn [app]. rewrite <- !app_assoc. reflexivity.
      + assert (T6 : token c1 = tEND) by lia. rewrite (token_toks _ _ T4), T6 in H. cbn [Z.eqb] in H.
        apply sdone_inv in H. subst c'. destruct (take _ _ T6 ltac:(discriminate)) as (TD & TKD).
        exists (ts ++ cur c0 :: us ++ [cur c1]), (CCase ks s CEnd). split; [|split; [eapply gs_last; eassumption|cbn; auto]].
        match goal with |- _ = _ ++ toks (getToken (data_op _ _ ?d)) => rewrite (get_toks _ d (toks_data _ _ d)), (get_toks _ _ T4) end.
        rewrite A, TB, A1, TD. rewrite <- !app_assoc. cbn [app]. rewrite <- !app_assoc. reflexivity.
  Qed.
End Acc.

Lemma all_acc n : AccS (statement n) /\ AccQ (statements n) /\ AccC (cases n).
Proof.
  induction n as [|n (HS & HQ & HC)]; [split; [|split]; intro; intros; discriminate|].
  split; [apply acc_any; assumption|]. split; [apply acc_seq; assumption|apply acc_one; assumption].
Qed.

Lemma stmt_accepted : forall n c c', statement n c = SDone c' -> errs c' = errs c -> Forall known (toks c) ->
  exists o ts s, toks c = ts ++ toks c' /\ gstmt o ts s /\ lax_stmt (negb (g_break c =? 0)) (negb (g_continue c =? 0)) s /\
    (o = true -> tk (hd eoftok (toks c')) <> tELSE).
Proof.
  intros n c c' H E W. apply (proj1 (all_acc n) _ _ c c' H); [unfold ne; rewrite E; lia|exact W|].
  split; intros Z; lia.
Qed.

(** ** A number that is not ordinal as a case constant *)

Definition plain (ts : list tok) : Prop := Forall (fun t => tk t <> tREAL_CONST) ts.
Ltac plains := unfold plain in *; repeat match goal with
  | H : Forall _ (_ ++ _) |- _ => apply Forall_app in H; destruct H
  | H : _ \/ _ |- _ => destruct H
  | |- Forall _ (_ ++ _) => apply Forall_app; split
  | |- Forall _ (_ :: _) => constructor
  | |- Forall _ [] => constructor
  end; try assumption;
  try match goal with H : tk ?a = _ |- tk ?a <> _ => rewrite H; clear; try match goal with |- (if ?b then _ else _) <> _ => destruct b end; discriminate end.
Lemma plain_var t x : spells_var t x -> tk t <> tREAL_CONST.
Proof. intros (K & _). rewrite K. destruct (vty x); discriminate. Qed.
Lemma expr_plain :
  (forall ts f, gfactor ts f -> plain ts) /\ (forall ts t, gterm ts t -> plain ts) /\
  (forall ts s, gsimple ts s -> plain ts) /\ (forall ts e, gexpr ts e -> plain ts).
Proof.
  apply grammar_ind; intros; try assumption; try (plains; fail).
  - constructor; [eapply plain_var; eassumption|constructor].
  - match goal with H : spells_std _ _ |- _ => destruct H as (? & _) end. plains.
  - destruct o; cbn in *; plains.
  - destruct o; cbn in *; plains.
  - unfold spells_rel in *. assert (tk a <> tREAL_CONST) by (rewrite s; destruct r; discriminate). plains.
Qed.
Lemma consts_plain ts ks : gconsts ts ks -> plain ts.
Proof.
  assert (K : forall t k, spells_const t k -> tk t <> tREAL_CONST) by (intros t k H; destruct k; destruct H as (-> & _); discriminate).
  induction 1; [constructor; [eauto|constructor]|]. constructor; [eauto|]. constructor; [|assumption].
  match goal with H : tk _ = tCOMMA |- _ => rewrite H; discriminate end.
Qed.
Lemma stmt_plain : (forall o ts s, gstmt o ts s -> plain ts) /\ (forall ts s, gstmts ts s -> plain ts) /\ (forall ts s, gcases ts s -> plain ts).
Proof.
  apply stmt_grammar_ind; intros; repeat match goal with
    | H : gexpr _ _ |- _ => apply expr_plain in H
    | H : gconsts _ _ |- _ => apply consts_plain in H
    | H : spells_var _ _ |- _ => apply plain_var in H
    end; plains.
Qed.
