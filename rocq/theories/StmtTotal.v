(** The statement compiler always ends, and does not depend on the fuel. *)

From Coq Require Import ZArith Bool List Lia ZifyBool.
From Verif Require Import Words State Opcodes EncodeModel Machine ExprModel ExprSpec ExprOps ExprLoad ExprProofs ExprParse ExprTotal StmtModel StmtSpec StmtMain.
Import ListNotations.
Open Scope Z_scope.

(** ** More fuel does not change the result *)

Definition skeeps (r r' : sres) : Prop := r <> SNoFuel -> r' = r.
Lemma skeeps_refl r : skeeps r r.
Proof. intros _. reflexivity. Qed.
Lemma skeeps_bind r r' k k' : skeeps r r' -> (forall c, skeeps (k c) (k' c)) -> skeeps (binds r k) (binds r' k').
Proof.
  intros H K N. destruct r; cbn [binds] in *; try (rewrite H by discriminate; reflexivity).
  - rewrite H by discriminate. cbn. apply K. exact N.
  - destruct N; reflexivity.
Qed.
Lemma skeeps_binde r r' k k' : keeps r r' -> (forall c, skeeps (k c) (k' c)) -> skeeps (binde r k) (binde r' k').
Proof.
  intros H K N. destruct r; cbn [binde] in *; try (rewrite H by discriminate; reflexivity).
  - rewrite H by discriminate. cbn. apply K. exact N.
  - destruct N; reflexivity.
Qed.
Lemma keeps_expr n f c : keeps (expression n f c) (expression (S n) f c).
Proof. apply (all_keep n). Qed.
Lemma skeeps_consts n : forall a b c, skeeps (case_constants n a b c) (case_constants (S n) a b c).
Proof.
  induction n as [|n IH]; intros a b c; [intros N; destruct N; reflexivity|].
  change (case_constants (S (S n)) a b c) with (
    let c := simple_op oDUP c in
    let v := tval (cur c) in
    if is_constant (token c) then
      let c := error_if (65535 <? v) eINTOVF c in
      let c := getToken (data_op oPUSH (if 65535 <? v then 65535 else v) c) in
      if token c =? tCOMMA then case_constants (S n) a b (getToken (data_op oJEQU a c))
      else SDone (data_op oJNEQ b c)
    else if token c =? tSTDFUNC then SNotModelled
    else SDone (error eINTCONST c)).
  cbn [case_constants]. cbv zeta. destruct (is_constant _); [|apply skeeps_refl].
  destruct (token _ =? tCOMMA); [apply IH|apply skeeps_refl].
Qed.

Section Keep.
  Variables (n : nat).
  Hypothesis HS : forall c, skeeps (statement n c) (statement (S n) c).
  Hypothesis HQ : forall c, skeeps (statements n c) (statements (S n) c).
  Hypothesis HC : forall a b c, skeeps (cases n a b c) (cases (S n) a b c).

  Lemma keep_assign o t v c : skeeps (assignment n o t v c) (assignment (S n) o t v c).
  Proof. unfold assignment. apply skeeps_binde; [apply keeps_expr|]. intros. apply skeeps_refl. Qed.
  Lemma keep_any c : skeeps (any_statement n (statement n) (statements n) (cases n) c)
    (any_statement (S n) (statement (S n)) (statements (S n)) (cases (S n)) c).
  Proof.
    unfold any_statement. cbv zeta. set (c0 := emit _ _ _ c).
    destruct (is_word_var _); [apply keep_assign|]. destruct (is_byte_var _); [apply keep_assign|].
    destruct (is_long_var _).
    { unfold large_assignment. apply skeeps_binde; [apply keeps_expr|]. intros. apply skeeps_refl. }
    destruct (token c0 =? tIF).
    { unfold if_statement. cbv zeta. apply skeeps_binde; [apply keeps_expr|]. intros c1. destruct (negb _); [apply skeeps_refl|].
      apply skeeps_bind; [apply HS|]. intros c2. destruct (token c2 =? tELSE); [|apply skeeps_refl].
      apply skeeps_bind; [apply HS|]. intros. apply skeeps_refl. }
    destruct (token c0 =? tCASE).
    { unfold case_statement. cbv zeta. apply skeeps_binde; [apply keeps_expr|]. intros c1.
      apply skeeps_bind; [apply HC|]. intros. apply skeeps_refl. }
    destruct (token c0 =? tREPEAT).
    { unfold repeat_statement. cbv zeta. apply skeeps_bind; [apply HQ|]. intros c1. apply skeeps_binde; [apply keeps_expr|]. intros. apply skeeps_refl. }
    destruct (token c0 =? tWHILE).
    { unfold while_statement. cbv zeta. apply skeeps_binde; [apply keeps_expr|]. intros c1. apply skeeps_bind; [apply HS|]. intros. apply skeeps_refl. }
    destruct (token c0 =? tFOR).
    { unfold for_statement. cbv zeta. destruct (_ || _); [apply skeeps_refl|]. destruct (negb _); [apply skeeps_refl|].
      apply skeeps_bind; [apply keep_assign|]. intros c1. destruct (negb _); [apply skeeps_refl|].
      apply skeeps_binde; [apply keeps_expr|]. intros c2. apply skeeps_bind; [apply HS|]. intros. apply skeeps_refl. }
    destruct (token c0 =? tBEGIN).
    { apply skeeps_bind; [apply HQ|]. intros. apply skeeps_refl. }
    destruct (existsb _ _); apply skeeps_refl.
  Qed.
  Lemma keep_one a b c : skeeps (one_case n (statement n) (cases n) a b c) (one_case (S n) (statement (S n)) (cases (S n)) a b c).
  Proof.
    unfold one_case. cbv zeta. destruct (token _ =? tELSE).
    - apply skeeps_bind; [apply HS|]. intros. apply skeeps_refl.
    - apply skeeps_bind; [apply skeeps_consts|]. intros c1. apply skeeps_bind; [apply HS|]. intros c2.
      match goal with |- skeeps (if ?b then _ else _) _ => destruct b end; [apply skeeps_refl|].
      match goal with |- skeeps (if ?b then _ else _) _ => destruct b end; [apply skeeps_refl|apply HC].
  Qed.
End Keep.

Lemma all_skeep n :
  (forall c, skeeps (statement n c) (statement (S n) c)) /\ (forall c, skeeps (statements n c) (statements (S n) c)) /\
  (forall a b c, skeeps (cases n a b c) (cases (S n) a b c)).
Proof.
  induction n as [|n (HS & HQ & HC)].
  { repeat split; intros; intros N; destruct N; reflexivity. }
  repeat match goal with |- _ /\ _ => split end.
  - intros c. rewrite (statement_S (S n)), (statement_S n). apply keep_any; assumption.
  - intros c. rewrite (statements_S (S n)), (statements_S n). apply skeeps_bind; [apply HS|]. intros c1.
    destruct (token c1 =? tSEMICOLON); [apply HQ|apply skeeps_refl].
  - intros a b c. rewrite (cases_S (S n)), (cases_S n). apply keep_one; assumption.
Qed.

Theorem statement_fuel n m c : (n <= m)%nat -> statement n c <> SNoFuel -> statement m c = statement n c.
Proof.
  intros L N. induction L as [|m L IH]; [reflexivity|].
  destruct (all_skeep m) as (H & _). rewrite <- IH. apply H. rewrite IH. exact N.
Qed.

(** ** Tokens are only consumed *)

Lemma len_emit k a b c : len (emit k a b c) = len c.
Proof. apply len_local, local_emit. Qed.
Lemma len_data k v c : len (data_op k v c) = len c.
Proof. apply len_emit. Qed.
Lemma len_simple k c : len (simple_op k c) = len c.
Proof. apply len_emit. Qed.
Lemma len_ref k v c : len (stack_ref k v c) = len c.
Proof. apply len_local, local_ref. Qed.
Lemma len_error e c : len (error e c) = len c.
Proof. reflexivity. Qed.
Lemma len_error_if b e c : len (error_if b e c) = len c.
Proof. destruct b; reflexivity. Qed.
Lemma len_count c : len (count c) = len c.
Proof. reflexivity. Qed.
Lemma len_loop x y z c : len (with_loop x y z c) = len c.
Proof. reflexivity. Qed.
Lemma len_expect k e c : (len (expect k e c) <= len c)%nat.
Proof. unfold expect. destruct (token c =? k); [apply len_get|rewrite len_error; lia]. Qed.
Lemma len_expr n f c t c' : expression n f c = Done t c' -> (len c' <= len c)%nat.
Proof. apply (all_eat n). Qed.

Definition spost (P : comp -> Prop) (r : sres) : Prop := match r with SDone c => P c | _ => True end.
Lemma spost_bind (P Q : comp -> Prop) r k : spost P r -> (forall c, P c -> spost Q (k c)) -> spost Q (binds r k).
Proof. destruct r; cbn; auto. Qed.
Lemma spost_binde (Q : comp -> Prop) n f c k : (forall c', (len c' <= len c)%nat -> spost Q (k c')) -> spost Q (binde (expression n f c) k).
Proof. intros H. destruct (expression n f c) eqn:E; cbn; auto. apply H. eapply len_expr; exact E. Qed.
Lemma spost_weaken (P Q : comp -> Prop) r : spost P r -> (forall c, P c -> Q c) -> spost Q r.
Proof. destruct r; cbn; auto. Qed.

Definition shrinks (l : nat) (r : sres) : Prop := spost (fun c => (len c <= l)%nat) r.

(* Rewrites away everything that leaves the tokens alone, and bounds the rest. *)
Ltac lens1 := repeat rewrite ?len_data, ?len_simple, ?len_ref, ?len_error, ?len_error_if, ?len_count, ?len_loop, ?len_emit in *.
Ltac bound_get c := let x := fresh "x" in pose proof (len_get c); set (x := len (getToken c)) in *; clearbody x.
Ltac bound_expect k e c := let x := fresh "x" in pose proof (len_expect k e c); set (x := len (expect k e c)) in *; clearbody x.
Ltac lens := lens1;
  repeat (match goal with
  | |- context [len (getToken ?c)] => bound_get c
  | |- context [len (expect ?k ?e ?c)] => bound_expect k e c
  | _ : context [len (getToken ?c)] |- _ => bound_get c
  | _ : context [len (expect ?k ?e ?c)] |- _ => bound_expect k e c
  end; lens1); try lia.

Lemma shrinks_done l c : (len c <= l)%nat -> shrinks l (SDone c).
Proof. intros H. exact H. Qed.
Lemma shrinks_less l l' r : shrinks l' r -> (l' <= l)%nat -> shrinks l r.
Proof. intros H L. eapply spost_weaken; [exact H|]. cbn beta. intros. lia. Qed.
Lemma shrinks_consts n : forall a b c, shrinks (len c) (case_constants n a b c).
Proof.
  induction n as [|n IH]; intros a b c; [exact I|]. cbn [case_constants]. cbv zeta.
  destruct (is_constant _).
  - match goal with |- shrinks _ (if ?b then _ else _) => destruct b end.
    + eapply shrinks_less; [apply IH|]. lens.
    + apply shrinks_done. lens.
  - destruct (_ =? tSTDFUNC); [exact I|]. apply shrinks_done. lens.
Qed.

Section Shrink.
  Variables (n : nat).
  Hypothesis HS : forall c, shrinks (len c) (statement n c).
  Hypothesis HQ : forall c, shrinks (len c) (statements n c).
  Hypothesis HC : forall a b c, shrinks (len c) (cases n a b c).

  Lemma shrink_assign o t v c : shrinks (len c) (assignment n o t v c).
  Proof. unfold assignment. apply spost_binde. intros c' L. apply shrinks_done. lens. Qed.
  Lemma shrink_any c : shrinks (len c) (any_statement n (statement n) (statements n) (cases n) c).
  Proof.
    unfold any_statement. cbv zeta. set (c0 := emit _ _ _ c).
    assert (E : len c = len c0) by (symmetry; apply len_emit). rewrite E. clear E. clearbody c0. clear c.
    destruct (is_word_var _); [eapply shrinks_less; [apply shrink_assign|lens]|].
    destruct (is_byte_var _); [eapply shrinks_less; [apply shrink_assign|lens]|].
    destruct (is_long_var _).
    { unfold large_assignment. apply spost_binde. intros c' L. apply shrinks_done. lens. }
    destruct (token c0 =? tIF).
    { unfold if_statement. cbv zeta. apply spost_binde. intros c1 L1. destruct (negb _); [apply shrinks_done; lens|].
      eapply spost_bind; [apply HS|]. cbn beta. intros c2 L2. destruct (token c2 =? tELSE); [|apply shrinks_done; lens].
      eapply spost_bind; [apply HS|]. cbn beta. intros c3 L3. apply shrinks_done; lens. }
    destruct (token c0 =? tCASE).
    { unfold case_statement. cbv zeta. apply spost_binde. intros c1 L1.
      eapply spost_bind; [apply HC|]. cbn beta. intros c2 L2. apply shrinks_done; lens. }
    destruct (token c0 =? tREPEAT).
    { unfold repeat_statement. cbv zeta. eapply spost_bind; [apply HQ|]. cbn beta. intros c1 L1. apply spost_binde.
      intros c2 L2. apply shrinks_done; lens. }
    destruct (token c0 =? tWHILE).
    { unfold while_statement. cbv zeta. apply spost_binde. intros c1 L1. eapply spost_bind; [apply HS|].
      cbn beta. intros c2 L2. apply shrinks_done; lens. }
    destruct (token c0 =? tFOR).
    { unfold for_statement. cbv zeta. destruct (_ || _); [exact I|]. destruct (negb _); [apply shrinks_done; lens|].
      eapply spost_bind; [apply shrink_assign|]. cbn beta. intros c1 L1. destruct (negb _); [exact I|].
      apply spost_binde. intros c2 L2. eapply spost_bind; [apply HS|]. cbn beta. intros c3 L3. apply shrinks_done; lens. }
    destruct (token c0 =? tBEGIN).
    { eapply spost_bind; [apply HQ|]. cbn beta. intros c1 L1. apply shrinks_done; lens. }
    destruct (existsb _ _); [exact I|].
    unfold standard_procedure, continue_break. cbv zeta.
    repeat match goal with |- context [if ?b then _ else _] => destruct b end; try exact I; apply shrinks_done; lens.
  Qed.
  Lemma shrink_one a b c : shrinks (len c) (one_case n (statement n) (cases n) a b c).
  Proof.
    unfold one_case. cbv zeta. destruct (token _ =? tELSE).
    - eapply spost_bind; [apply HS|]. cbn beta. intros c1 L1. apply shrinks_done. destruct (token c1 =? tSEMICOLON); lens.
    - eapply spost_bind; [apply shrinks_consts|]. cbn beta. intros c1 L1. eapply spost_bind; [apply HS|]. cbn beta. intros c2 L2.
      match goal with |- spost _ (if ?b then _ else _) => destruct b end; [apply shrinks_done; lens|].
      match goal with |- context [token (data_op oJMP b c2) =? tSEMICOLON] => destruct (token (data_op oJMP b c2) =? tSEMICOLON) end.
      + match goal with |- spost _ (if ?b then _ else _) => destruct b end; [apply shrinks_done; lens|].
        eapply shrinks_less; [apply HC|lens].
      + match goal with |- spost _ (if ?b then _ else _) => destruct b end; [apply shrinks_done; lens|].
        eapply shrinks_less; [apply HC|lens].
  Qed.
End Shrink.

Lemma all_shrink n :
  (forall c, shrinks (len c) (statement n c)) /\ (forall c, shrinks (len c) (statements n c)) /\
  (forall a b c, shrinks (len c) (cases n a b c)).
Proof.
  induction n as [|n (HS & HQ & HC)].
  { repeat split; intros; exact I. }
  repeat match goal with |- _ /\ _ => split end.
  - intros c. rewrite (statement_S n). apply shrink_any; assumption.
  - intros c. rewrite (statements_S n). eapply spost_bind; [apply HS|]. cbn beta. intros c1 L1.
    destruct (token c1 =? tSEMICOLON); [eapply shrinks_less; [apply HQ|lens]|apply shrinks_done; lens].
  - intros a b c. rewrite (cases_S n). apply shrink_one; assumption.
Qed.

(** ** Termination *)

Definition ends (r : sres) : Prop := r <> SNoFuel.
Lemma ends_bind (P : comp -> Prop) r k : ends r -> spost P r -> (forall c, P c -> ends (k c)) -> ends (binds r k).
Proof. unfold ends. destruct r; cbn; intros A B C; auto; discriminate. Qed.
Lemma ends_binde n f c k : (4 * len c + 4 <= n)%nat -> (forall c', (len c' <= len c)%nat -> ends (k c')) -> ends (binde (expression n f c) k).
Proof.
  intros L H. pose proof (expression_ends n f c L) as N. destruct (expression n f c) eqn:E; cbn; try discriminate; [|destruct N; reflexivity].
  apply H. eapply len_expr; exact E.
Qed.
Lemma ends_done c : ends (SDone c).
Proof. discriminate. Qed.

Lemma token_emit k a b c : token (emit k a b c) = token c.
Proof. unfold token, cur. destruct (local_emit k a b c) as (_ & ->). reflexivity. Qed.
Lemma token_data k v c : token (data_op k v c) = token c.
Proof. apply token_emit. Qed.
Lemma token_error_if b e c : token (error_if b e c) = token c.
Proof. destruct b; reflexivity. Qed.

Lemma ends_consts n : forall a b c, (len c < n)%nat -> ends (case_constants n a b c).
Proof.
  induction n as [|n IH]; intros a b c L; [lia|]. cbn [case_constants]. cbv zeta.
  destruct (is_constant _) eqn:E.
  - match goal with |- ends (if ?b then _ else _) => destruct b eqn:F end; [|apply ends_done].
    apply IH. apply Z.eqb_eq in F.
    match goal with |- context [getToken (data_op oJEQU a ?x)] => set (d := x) in * end.
    assert (N : token (data_op oJEQU a d) <> 0) by (rewrite token_data, F; discriminate).
    apply len_get_lt in N. subst d. lens.
  - destruct (_ =? tSTDFUNC); discriminate.
Qed.

Lemma some_var t (f : Z -> bool) : f t = true -> f 0 = false -> t <> 0.
Proof. intros A B ->. congruence. Qed.

Section Ends.
  Variables (n : nat).
  Hypothesis HS : forall c, (4 * len c + 5 <= n)%nat -> ends (statement n c).
  Hypothesis HQ : forall c, token c <> 0 -> (4 * len c + 2 <= n)%nat -> ends (statements n c).
  Hypothesis HC : forall a b c, (4 * len c + 6 <= n)%nat -> ends (cases n a b c).

  Lemma len_S c : shrinks (len c) (statement n c).
  Proof. apply all_shrink. Qed.
  Lemma len_Q c : shrinks (len c) (statements n c).
  Proof. apply all_shrink. Qed.
  Lemma len_C a b c : shrinks (len c) (cases n a b c).
  Proof. apply all_shrink. Qed.

  Lemma end_assign o t v c : (4 * len c + 4 <= n)%nat -> ends (assignment n o t v c).
  Proof. intros L. unfold assignment. apply ends_binde; [lens|]. intros c' L'. apply ends_done. Qed.
  Lemma end_any c : (4 * len c + 4 <= n)%nat -> ends (any_statement n (statement n) (statements n) (cases n) c).
  Proof.
    intros L. unfold any_statement. cbv zeta. set (c0 := emit _ _ _ c).
    assert (E : len c = len c0) by (symmetry; apply len_emit). rewrite E in L. clear E. clearbody c0. clear c.
    destruct (is_word_var _); [apply end_assign; lens|].
    destruct (is_byte_var _); [apply end_assign; lens|].
    destruct (is_long_var _).
    { unfold large_assignment. apply ends_binde; [lens|]. intros c' L'. apply ends_done. }
    destruct (token c0 =? tIF) eqn:T.
    { assert (G := len_get_lt c0). rewrite (proj1 (Z.eqb_eq _ _) T) in G. specialize (G ltac:(discriminate)).
      unfold if_statement. cbv zeta. apply ends_binde; [lens|]. intros c1 L1.
      assert (L1' : (len c1 < len c0)%nat) by (unfold len, count, with_label in L1, G |- *; cbn [toks getToken] in *; lia).
      destruct (negb _); [apply ends_done|].
      eapply ends_bind; [apply HS; lens|apply len_S|]. cbn beta. intros c2 L2. destruct (token c2 =? tELSE); [|apply ends_done].
      eapply ends_bind; [apply HS; lens|apply len_S|]. cbn beta. intros c3 L3. apply ends_done. }
    destruct (token c0 =? tCASE) eqn:T2.
    { assert (G := len_get_lt c0). rewrite (proj1 (Z.eqb_eq _ _) T2) in G. specialize (G ltac:(discriminate)).
      unfold case_statement. cbv zeta. apply ends_binde; [lens|]. intros c1 L1.
      assert (L1' : (len c1 < len c0)%nat) by (unfold len, count, with_label in L1, G |- *; cbn [toks getToken] in *; lia).
      eapply ends_bind; [apply HC; lens|apply len_C|]. cbn beta. intros c2 L2. apply ends_done. }
    destruct (token c0 =? tREPEAT) eqn:T3.
    { unfold repeat_statement. cbv zeta. eapply ends_bind; [apply HQ; [|lens]|apply len_Q|].
      - rewrite token_data. change (token c0 <> 0). rewrite (proj1 (Z.eqb_eq _ _) T3). discriminate.
      - cbn beta. intros c1 L1. apply ends_binde; [lens|]. intros c2 L2. apply ends_done. }
    destruct (token c0 =? tWHILE) eqn:T4.
    { assert (G := len_get_lt c0). rewrite (proj1 (Z.eqb_eq _ _) T4) in G. specialize (G ltac:(discriminate)).
      unfold while_statement. cbv zeta. apply ends_binde; [lens|]. intros c1 L1.
      rewrite len_data in L1.
      assert (L1' : (len c1 < len c0)%nat) by (unfold len, count, with_label, with_loop in L1, G |- *; cbn [toks getToken] in *; lia).
      eapply ends_bind; [apply HS; lens|apply len_S|]. cbn beta. intros c2 L2. apply ends_done. }
    destruct (token c0 =? tFOR) eqn:T5.
    { assert (G := len_get_lt c0). rewrite (proj1 (Z.eqb_eq _ _) T5) in G. specialize (G ltac:(discriminate)).
      unfold for_statement. cbv zeta. destruct (_ || _); [discriminate|]. destruct (negb _); [apply ends_done|].
      set (d := getToken (with_loop _ _ _ _)).
      assert (Ld : (len d < len c0)%nat) by (unfold d, len, count, with_label, with_loop in G |- *; cbn [toks getToken] in *; lia).
      clearbody d. clear G.
      eapply ends_bind; [apply end_assign; lens| |].
      { apply shrink_assign; apply all_shrink. }
      cbn beta. intros c1 L1. destruct (negb _); [discriminate|].
      apply ends_binde; [lens|]. intros c2 L2. eapply ends_bind; [apply HS; lens|apply len_S|]. cbn beta. intros c3 L3. apply ends_done. }
    destruct (token c0 =? tBEGIN) eqn:T6.
    { eapply ends_bind; [apply HQ; [|lens]|apply len_Q|].
      - rewrite (proj1 (Z.eqb_eq _ _) T6). discriminate.
      - cbn beta. intros c1 L1. apply ends_done. }
    destruct (existsb _ _); [discriminate|].
    unfold standard_procedure. cbv zeta. repeat match goal with |- ends (if ?b then _ else _) => destruct b end; discriminate.
  Qed.
  Lemma end_one a b c : (4 * len c + 5 <= n)%nat -> ends (one_case n (statement n) (cases n) a b c).
  Proof.
    intros L. unfold one_case. cbv zeta. destruct (token _ =? tELSE).
    - eapply ends_bind; [apply HS; lens|apply len_S|]. cbn beta. intros c1 L1. apply ends_done.
    - eapply ends_bind; [apply ends_consts; lens|apply shrinks_consts|]. cbn beta. intros c1 L1.
      eapply ends_bind; [apply HS; lens|apply len_S|]. cbn beta. intros c2 L2.
      match goal with |- ends (if ?b then _ else _) => destruct b eqn:B end; [apply ends_done|].
      destruct (token (data_op oJMP b c2) =? tSEMICOLON) eqn:E.
      + match goal with |- ends (if ?b then _ else _) => destruct b end; [apply ends_done|].
        apply HC. apply Z.eqb_eq in E.
        assert (N : token (data_op oJMP b c2) <> 0) by (rewrite E; discriminate).
        apply len_get_lt in N. lens.
      + cbn [negb andb] in B. destruct (token _ =? tEND); [apply ends_done|discriminate].
  Qed.
End Ends.

Lemma all_ends n :
  (forall c, (4 * len c + 5 <= n)%nat -> ends (statement n c)) /\
  (forall c, token c <> 0 -> (4 * len c + 2 <= n)%nat -> ends (statements n c)) /\
  (forall a b c, (4 * len c + 6 <= n)%nat -> ends (cases n a b c)).
Proof.
  induction n as [|n (HS & HQ & HC)].
  { repeat split; intros; lia. }
  repeat match goal with |- _ /\ _ => split end.
  - intros c L. rewrite (statement_S n). apply end_any; try assumption. lia.
  - intros c N L. rewrite (statements_S n). pose proof (len_get_lt c N) as G.
    eapply ends_bind; [apply HS; lia|apply len_S|]. cbn beta. intros c1 L1.
    destruct (token c1 =? tSEMICOLON) eqn:E; [|apply ends_done]. apply HQ; [|lia].
    rewrite (proj1 (Z.eqb_eq _ _) E). discriminate.
  - intros a b c L. rewrite (cases_S n). apply end_one; try assumption. lia.
Qed.

Theorem statement_ends n c : (4 * length (toks c) + 5 <= n)%nat -> statement n c <> SNoFuel.
Proof. apply (all_ends n). Qed.
Theorem statement_stops n c c' : statement n c = SDone c' -> (length (toks c') <= length (toks c))%nat.
Proof. intros H. pose proof (proj1 (all_shrink n) c) as S. rewrite H in S. exact S. Qed.
