(** Rewriting entries of the optimizer's table and the code it contains. *)

From Coq Require Import ZArith Bool List Lia ZifyBool Relations.Relation_Operators.
From Verif Require Import Words State Opcodes Machine WordLemmas VmSpec EncodeSpec OptSpec OptStack OptPure OptStep OptFine OptUnary PoptModel.
Import ListNotations.
Open Scope Z_scope.
Ltac Zify.zify_post_hook ::= Z.div_mod_to_equations.

Fixpoint put_vis (t : list opType) (a : nat) (put : list opType) : list opType :=
  match t with
  | [] => []
  | o :: t' =>
    if ends_before (op o) then t
    else if ends_after (op o) then match a, put with O, q :: _ => q :: t' | _, _ => t end
    else if skipped (op o) then o :: put_vis t' a put
    else match a with
         | S a' => o :: put_vis t' a' put
         | O => match put with [] => t | q :: put' => q :: put_vis t' 0 put' end
         end
  end.

Lemma put_slots_nil t put : put_slots t [] put = t.
Proof. destruct put; reflexivity. Qed.
Lemma put_slots_none t ps : put_slots t ps [] = t.
Proof. destruct ps; reflexivity. Qed.

Lemma put_slot_at pfx o t q : put_slot (pfx ++ o :: t) (length pfx) q = pfx ++ q :: t.
Proof.
  unfold put_slot. rewrite nth_error_app2 by lia. rewrite Nat.sub_diag. cbn [nth_error].
  rewrite firstn_app, firstn_all, Nat.sub_diag. cbn [firstn]. rewrite app_nil_r.
  f_equal. f_equal. rewrite skipn_app, skipn_all2 by lia.
  replace (S (length pfx) - length pfx)%nat with 1%nat by lia. reflexivity.
Qed.

Lemma put_vis_eq t : forall pfx a put,
  put_slots (pfx ++ t) (skipn a (slots_from (length pfx) t)) put = pfx ++ put_vis t a put.
Proof.
  induction t as [|o t IH]; intros pfx a put.
  - cbn [slots_from put_vis]. rewrite skipn_nil. rewrite put_slots_nil. reflexivity.
  - cbn [slots_from put_vis]. 
    destruct (ends_before (op o)).
    { rewrite skipn_nil, put_slots_nil. reflexivity. }
    assert (Hl : forall q, length (pfx ++ [q]) = S (length pfx)) by (intros; rewrite app_length; cbn; lia).
    destruct (ends_after (op o)).
    { destruct a as [|a]; cbn [skipn].
      - destruct put as [|q put]; [reflexivity|]. cbn [put_slots]. rewrite put_slot_at. destruct put; reflexivity.
      - rewrite skipn_nil, put_slots_nil. reflexivity. }
    destruct (skipped (op o)).
    { pose proof (IH (pfx ++ [o]) a put) as H. rewrite Hl in H. rewrite <- !app_assoc in H. exact H. }
    destruct a as [|a]; cbn [skipn].
    + destruct put as [|q put]; [reflexivity|]. cbn [put_slots]. rewrite put_slot_at.
      pose proof (IH (pfx ++ [q]) 0%nat put) as H. rewrite Hl in H. cbn [skipn] in H. rewrite <- !app_assoc in H. exact H.
    + pose proof (IH (pfx ++ [o]) a put) as H. rewrite Hl in H. rewrite <- !app_assoc in H. exact H.
Qed.

Lemma put_slots_vis t a put : put_slots t (skipn a (slots t)) put = put_vis t a put.
Proof. exact (put_vis_eq t [] a put). Qed.

Lemma slots_visible t : forall p, length (slots_from p t) = length (visible t).
Proof.
  induction t as [|o t IH]; intros p; [reflexivity|]. cbn [slots_from visible].
  destruct (ends_before (op o)); [reflexivity|]. destruct (ends_after (op o)); [reflexivity|].
  destruct (skipped (op o)); [apply IH|]. cbn [length]. rewrite IH. reflexivity.
Qed.

Lemma slots_nth t : forall pfx k p, nth_error (slots_from (length pfx) t) k = Some p ->
  exists o, nth_error (pfx ++ t) p = Some o /\ nth_error (visible t) k = Some o.
Proof.
  induction t as [|o t IH]; intros pfx k p H; cbn [slots_from] in H.
  - destruct k; discriminate.
  - cbn [visible]. 
    assert (Hl : forall q, length (pfx ++ [q]) = S (length pfx)) by (intros; rewrite app_length; cbn; lia).
    assert (Hn : nth_error (pfx ++ o :: t) (length pfx) = Some o)
      by (rewrite nth_error_app2, Nat.sub_diag by lia; reflexivity).
    destruct (ends_before (op o)); [destruct k; discriminate|].
    destruct (ends_after (op o)).
    { destruct k as [|k]; [|destruct k; discriminate]. injection H as <-. exists o. auto. }
    destruct (skipped (op o)).
    { pose proof (IH (pfx ++ [o]) k p) as H2. rewrite Hl in H2. rewrite <- app_assoc in H2. apply H2. exact H. }
    destruct k as [|k].
    + injection H as <-. exists o. auto.
    + cbn [nth_error] in *. pose proof (IH (pfx ++ [o]) k p) as H2. rewrite Hl in H2. rewrite <- app_assoc in H2. apply H2. exact H.
Qed.

(** ------------------------------------------------------------------ *)
Definition live (o : opType) : bool := negb ((op o =? oNOP) || (op o =? oLINE)).
Lemma code_cons o t : code (o :: t) = if live o then o :: code t else code t.
Proof. reflexivity. Qed.
Lemma skipped_live o : skipped (op o) = negb (live o).
Proof. unfold skipped, live. rewrite negb_involutive. reflexivity. Qed.
Lemma ends_after_live o : ends_after (op o) = true -> live o = true.
Proof. unfold ends_after, live, oNOP, oLINE, oJMP, oJEQUZ, oJNEQZ, oJLTZ, oJGTEZ, oJGTZ, oJLTEZ. lia. Qed.

(** The code before and after overwriting visible entries *)
Lemma put_vis_code t : forall a put, (a + length put <= length (visible t))%nat ->
  exists pre post,
    code t = pre ++ firstn (length put) (skipn a (visible t)) ++ post /\
    code (put_vis t a put) = pre ++ code put ++ post.
Proof.
  induction t as [|o t IH]; intros a put H; cbn [visible put_vis] in *.
  - destruct put; [|cbn in H; lia]. exists [], []. destruct a; auto.
  - destruct (ends_before (op o)) eqn:E1.
    { destruct put; [|cbn in H; lia]. exists [], (code (o :: t)). cbn [length firstn]. split; reflexivity. }
    destruct (ends_after (op o)) eqn:E2.
    { pose proof (ends_after_live o E2) as HL. destruct a as [|a].
      - destruct put as [|q put].
        + exists [], (code (o :: t)). split; reflexivity.
        + destruct put; [|cbn in H; lia]. exists [], (code t). cbn [length firstn skipn app].
          rewrite !code_cons, HL. split; [reflexivity|]. destruct (live q); reflexivity.
      - destruct put; [|cbn in H; lia]. exists [], (code (o :: t)). cbn [length firstn]. split; reflexivity. }
    rewrite skipped_live in *. destruct (live o) eqn:HL; cbn [negb] in *.
    + destruct a as [|a]; cbn [skipn].
      * destruct put as [|q put].
        -- exists [], (code (o :: t)). split; reflexivity.
        -- cbn [length] in H. destruct (IH 0%nat put ltac:(lia)) as (pre & post & A & B). cbn [skipn] in A.
           assert (Hpre : exists post', code t = firstn (length put) (visible t) ++ post' /\
                     code (put_vis t 0 put) = code put ++ post').
           { clear - H. revert put H. induction t as [|x t IHt]; intros put H; cbn [visible put_vis] in *.
             - destruct put; [|cbn in H; lia]. exists []. auto.
             - destruct (ends_before (op x)) eqn:E1.
               { destruct put; [|cbn in H; lia]. exists (code (x :: t)). auto. }
               destruct (ends_after (op x)) eqn:E2.
               { destruct put as [|q put]; [exists (code (x :: t)); auto|]. destruct put; [|cbn in H; lia].
                 exists (code t). rewrite !code_cons, (ends_after_live _ E2). split; [reflexivity|]. destruct (live q); reflexivity. }
               rewrite skipped_live in *. destruct (live x) eqn:HL; cbn [negb] in *.
               + destruct put as [|q put]; [exists (code (x :: t)); auto|]. cbn [length] in H.
                 destruct (IHt put ltac:(lia)) as (post & A & B). exists post. rewrite !code_cons, HL, A, B.
                 cbn [length firstn app]. split; [reflexivity|]. destruct (live q); reflexivity.
               + destruct (IHt put H) as (post & A & B). exists post. rewrite !code_cons, HL. auto. }
           destruct Hpre as (post' & A' & B'). exists [], post'. cbn [length firstn app]. rewrite !code_cons, HL, A', B'.
           split; [reflexivity|]. destruct (live q); reflexivity.
      * cbn [length] in H. destruct (IH a put ltac:(lia)) as (pre & post & A & B).
        exists (o :: pre), post. rewrite !code_cons, HL, A, B. split; reflexivity.
    + destruct (IH a put H) as (pre & post & A & B). exists pre, post. rewrite !code_cons, HL. auto.
Qed.

Lemma put_vis_wf t : forall a put, Forall wf_op t -> Forall wf_op put -> Forall wf_op (put_vis t a put).
Proof.
  induction t as [|o t IH]; intros a put Ht Hp; cbn [put_vis]; [exact Ht|].
  inversion Ht; subst. destruct (ends_before (op o)); [exact Ht|].
  destruct (ends_after (op o)).
  { destruct a; [|exact Ht]. destruct put; [exact Ht|]. inversion Hp; subst. constructor; assumption. }
  destruct (skipped (op o)); [constructor; auto|].
  destruct a; [|constructor; auto]. destruct put; [exact Ht|]. inversion Hp; subst. constructor; auto.
Qed.

Lemma visible_wf t : Forall wf_op t -> Forall wf_op (visible t).
Proof.
  induction 1; cbn [visible]; [constructor|].
  destruct (ends_before (op x)); [constructor|]. destruct (ends_after (op x)); [constructor; [assumption|constructor]|].
  destruct (skipped (op x)); [assumption|constructor; assumption].
Qed.

Lemma visible_live t : Forall (fun o => live o = true) (visible t).
Proof.
  induction t as [|x t IH]; cbn [visible]; [constructor|].
  destruct (ends_before (op x)); [constructor|].
  destruct (ends_after (op x)) eqn:E; [constructor; [apply ends_after_live; assumption|constructor]|].
  rewrite skipped_live. destruct (live x) eqn:L; cbn [negb]; [constructor; assumption|assumption].
Qed.

Definition inside (o : opType) : Prop := ends_before (op o) = false.
Lemma visible_inside t : Forall inside (visible t).
Proof.
  induction t as [|o t IH]; cbn [visible]; [constructor|]. destruct (ends_before (op o)) eqn:E; [constructor|].
  destruct (ends_after (op o)); [constructor; [exact E|constructor]|]. destruct (skipped (op o)); [exact IH|constructor; [exact E|exact IH]].
Qed.
Lemma skipn_Forall (P : opType -> Prop) v i w : Forall P v -> skipn i v = w -> Forall P w.
Proof. intros H <-. rewrite <- (firstn_skipn i v) in H. apply Forall_app in H. apply H. Qed.

(** A chain of rewritings inside a window *)
Definition wclos := clos_refl_trans _ window_refines.

Lemma window_ctx x y pre post : window_refines x y -> window_refines (pre ++ x ++ post) (pre ++ y ++ post).
Proof.
  intros (p & u & v & q & -> & -> & M & R). exists (pre ++ p), u, v, (q ++ post). rewrite <- !app_assoc. auto.
Qed.
Lemma wclos_ctx x y pre post : wclos x y -> wclos (pre ++ x ++ post) (pre ++ y ++ post).
Proof.
  induction 1; [apply rt_step; apply window_ctx; assumption|apply rt_refl|eapply rt_trans; eassumption].
Qed.
Lemma wclos_refines x y : unmarked (x ++ y) -> refines x y -> wclos x y.
Proof. intros M R. apply rt_step. exists [], x, y, []. rewrite !app_nil_r. auto. Qed.

Lemma unmarked_eqb o : existsb (Z.eqb (op o)) marks = false -> ~ In (op o) marks.
Proof. intros E H. rewrite (proj2 (existsb_exists _ _)) in E; [discriminate|]. exists (op o). split; [exact H|apply Z.eqb_refl]. Qed.
Lemma dec8_unmarked o d : decode_op8 (op o) = Some d -> ends_before (op o) = false -> ~ In (op o) marks.
Proof.
  intros D B H. cbn [In marks] in H.
  repeat (destruct H as [H|H]; [rewrite <- H in D, B; first [discriminate D|discriminate B]|]). exact H.
Qed.
Lemma one_of_unmarked l o : one_of l o = true -> forallb (fun z => negb (existsb (Z.eqb z) marks)) l = true -> ~ In (op o) marks.
Proof.
  intros H F. unfold one_of in H. apply existsb_exists in H as (z & Hz & E). apply Z.eqb_eq in E. apply unmarked_eqb. rewrite E.
  rewrite forallb_forall in F. specialize (F z Hz). destruct (existsb (Z.eqb z) marks); [discriminate|reflexivity].
Qed.
Lemma in_unmarked l o : In (op o) l -> forallb (fun z => negb (existsb (Z.eqb z) marks)) l = true -> ~ In (op o) marks.
Proof.
  intros Hz F. apply unmarked_eqb. rewrite forallb_forall in F. specialize (F (op o) Hz). destruct (existsb (Z.eqb (op o)) marks); [discriminate|reflexivity].
Qed.
Ltac um1 := try match goal with |- context [op (set_arg2 ?o ?r)] => change (op (set_arg2 o r)) with (op o) end; first
  [ match goal with H : ?x |- ?x => exact H end
  | apply unmarked_eqb; reflexivity
  | match goal with H : one_of ?l ?o = true |- ~ In (op ?o) marks => apply (one_of_unmarked l o H); reflexivity end
  | match goal with H : check_push ?o = true |- ~ In (op ?o) marks => apply (one_of_unmarked _ o H); reflexivity end
  | match goal with H : check_load ?o = true |- ~ In (op ?o) marks => apply (one_of_unmarked _ o H); reflexivity end
  | match goal with H : check_store ?o = true |- ~ In (op ?o) marks => apply (one_of_unmarked _ o H); reflexivity end
  | match goal with H : check_binary ?o = true |- ~ In (op ?o) marks => apply (one_of_unmarked _ o H); reflexivity end
  | match goal with H : check_address ?o = true |- ~ In (op ?o) marks => apply (one_of_unmarked _ o H); reflexivity end
  | match goal with H : In (op ?o) ?l |- ~ In (op ?o) marks => apply (in_unmarked l o H); reflexivity end
  | match goal with H : In ?z ?l |- ~ In (op (mkOp ?z _ _)) marks => cbn [op]; apply (in_unmarked l (mkOp z 0 0) H); reflexivity end
  | match goal with H : decode_op8 (op ?o) = Some ?d |- ~ In (op ?o) marks => apply (dec8_unmarked o d H); assumption end
  | match goal with H : check_transitive ?o = true |- ~ In (op ?o) marks => apply (one_of_unmarked _ o H); reflexivity end
  | match goal with H : op ?o = _ |- ~ In (op ?o) marks => apply unmarked_eqb; rewrite H; reflexivity end ].
Ltac um := let q := fresh "q" in let Hq := fresh "Hq" in
  intros q Hq; apply in_app_or in Hq; destruct Hq as [Hq|Hq];
  repeat (cbn [firstn length In app] in Hq;
    match type of Hq with
    | _ \/ _ => destruct Hq as [Hq|Hq]; [subst q|]
    | False => destruct Hq
    | In _ (if ?c then _ else _) => destruct c
    | In _ (code _) => apply filter_In in Hq; destruct Hq as [Hq _]
    | In _ (filter _ _) => apply filter_In in Hq; destruct Hq as [Hq _]
    end);
  um1.
Lemma wclos_refl x : wclos x x.
Proof. apply rt_refl. Qed.
Lemma wclos_trans x y z : wclos x y -> wclos y z -> wclos x z.
Proof. apply rt_trans. Qed.
Lemma wclos_cons o x y : wclos x y -> wclos (o :: x) (o :: y).
Proof. intros H. pose proof (wclos_ctx x y [o] [] H) as H2. rewrite !app_nil_r in H2. exact H2. Qed.
Lemma wclos_snoc x y p : wclos x y -> wclos (x ++ p) (y ++ p).
Proof. intros H. exact (wclos_ctx x y [] p H). Qed.

(** ------------------------------------------------------------------ *)
Lemma preserved_refl t : preserved t t.
Proof. apply rt_refl. Qed.
Lemma preserved_trans t1 t2 t3 : preserved t1 t2 -> preserved t2 t3 -> preserved t1 t3.
Proof. apply rt_trans. Qed.

Lemma put_preserved t a put : (a + length put <= length (visible t))%nat ->
  wclos (firstn (length put) (skipn a (visible t))) (code put) -> preserved t (put_vis t a put).
Proof.
  intros H R. destruct (put_vis_code t a put H) as (pre & post & A & B). unfold preserved. rewrite A, B. apply wclos_ctx. exact R.
Qed.

(** popt_OptimizePush *)
Lemma optimize_push_wf o : wf_op o -> wf_op (optimize_push o).
Proof.
  intros W. unfold optimize_push. destruct (op o =? oPUSH); [|exact W].
  destruct (_ && _); [repeat split; cbn; try lia; try (apply u8_range); intros; try discriminate; reflexivity|].
  destruct (_ <=? 255); [repeat split; cbn; try lia; try (apply u8_range); intros; try discriminate; reflexivity|exact W].
Qed.

Lemma optimize_push_pushes o : op o = oPUSH -> wf_op o ->
  check_push (optimize_push o) = true /\ arg2 (expand_push (optimize_push o)) = arg2 o.
Proof.
  intros E (H0 & H1 & H2 & _). unfold optimize_push. rewrite E. change (oPUSH =? oPUSH) with true. cbv iota.
  destruct ((-128 <=? s16 (arg2 o)) && (s16 (arg2 o) <=? 127)) eqn:E1.
  - split; [reflexivity|]. unfold expand_push. cbn [op arg1 arg2]. change (oPUSHB =? oPUSHB) with true. cbv iota.
    cbn [arg2]. unfold s16, u16, s8, u8 in *. 
    destruct (arg2 o mod 65536 <? 32768) eqn:E3; destruct (arg2 o mod 256 mod 256 <? 128) eqn:E2; lia.
  - destruct (arg2 o <=? 255) eqn:E2.
    + split; [reflexivity|]. unfold expand_push. cbn [op arg1 arg2]. unfold u8. 
      change (oUPUSHB =? oPUSHB) with false. change (oUPUSHB =? oUPUSHB) with true. cbv iota. cbn [arg2]. lia.
    + split; [unfold check_push; rewrite one_of_In, E; cbn; tauto|].
      unfold expand_push. rewrite E. reflexivity.
Qed.

Lemma optimize_push_refines o : wf_op o -> refines [o] [optimize_push o].
Proof.
  intros W. destruct (Z.eq_dec (op o) oPUSH) as [E|E].
  2:{ unfold optimize_push. apply Z.eqb_neq in E. rewrite E. apply refines_refl. }
  destruct (optimize_push_pushes o E W) as [C A].
  assert (Co : check_push o = true) by (unfold check_push; rewrite one_of_In, E; cbn; tauto).
  apply rule_pure.
  { intros x Hx. cbn [app In] in Hx. destruct Hx as [<-|[<-|[]]]; apply push_not_mem; assumption. }
  intros. cbn [prun]. rewrite (pexec_push s0 o _ W Co), (pexec_push s0 _ _ (optimize_push_wf o W) C), A.
  unfold expand_push. rewrite E. right. split; [reflexivity|discriminate].
Qed.

Lemma optimize_push_wclos o : wf_op o -> wclos [o] [optimize_push o].
Proof.
  intros W. destruct (Z.eq_dec (op o) oPUSH) as [E|E].
  2:{ unfold optimize_push. apply Z.eqb_neq in E. rewrite E. apply wclos_refl. }
  apply wclos_refines; [|apply optimize_push_refines; exact W].
  destruct (optimize_push_pushes o E W) as [C _]. um.
Qed.

Lemma optimize_push_live o : live o = true -> live (optimize_push o) = true.
Proof.
  intros H. unfold optimize_push. destruct (op o =? oPUSH); [|exact H].
  destruct (_ && _); [reflexivity|]. destruct (_ <=? 255); [reflexivity|exact H].
Qed.

Lemma opt_at_ok t k : Forall wf_op t -> preserved t (opt_at t k) /\ Forall wf_op (opt_at t k).
Proof.
  intros W. unfold opt_at. destruct (nth_error (slots t) k) as [p|] eqn:E; [|split; [apply preserved_refl|exact W]].
  destruct (slots_nth t [] k p E) as (o & H1 & H2). cbn [app] in H1. rewrite H1.
  assert (Hk : (k < length (visible t))%nat) by (apply nth_error_Some; congruence).
  assert (Ev : firstn 1 (skipn k (visible t)) = [o]).
  { clear - H2. revert k H2. induction (visible t) as [|x l IH]; intros [|k] H; try discriminate.
    - injection H as <-. reflexivity.
    - cbn [skipn]. apply IH. exact H. }
  assert (Es : skipn k (slots t) = p :: skipn (S k) (slots t)).
  { clear - E. revert k E. induction (slots t) as [|x l IH]; intros [|k] H; try discriminate.
    - injection H as <-. reflexivity.
    - cbn [skipn]. apply IH. exact H. }
  assert (Eq : put_slot t p (optimize_push o) = put_vis t k [optimize_push o]).
  { rewrite <- put_slots_vis, Es. cbn [put_slots]. rewrite put_slots_none. reflexivity. }
  rewrite Eq.
  assert (Wo : wf_op o). { pose proof (visible_wf t W) as V. rewrite Forall_forall in V. apply V. eapply nth_error_In; eassumption. }
  assert (Lo : live o = true). { pose proof (visible_live t) as V. rewrite Forall_forall in V. apply V. eapply nth_error_In; eassumption. }
  split.
  - apply put_preserved; [cbn [length]; lia|]. cbn [length]. rewrite Ev.
    rewrite code_cons, (optimize_push_live o Lo). cbn [code filter]. apply optimize_push_wclos. exact Wo.
  - apply put_vis_wf; [exact W|]. constructor; [apply optimize_push_wf; exact Wo|constructor].
Qed.

Lemma opts_ok opts : forall t, Forall wf_op t ->
  preserved t (fold_left opt_at opts t) /\ Forall wf_op (fold_left opt_at opts t).
Proof.
  induction opts as [|k opts IH]; intros t W; cbn [fold_left]; [split; [apply preserved_refl|exact W]|].
  destruct (opt_at_ok t k W) as [P W']. destruct (IH _ W') as [P' W'']. split; [|exact W''].
  eapply preserved_trans; eassumption.
Qed.

Theorem rewrite_ok t a put opts : Forall wf_op t -> Forall wf_op put ->
  (a + length put <= length (visible t))%nat ->
  wclos (firstn (length put) (skipn a (visible t))) (code put) ->
  preserved t (rewrite_at t a put opts) /\ Forall wf_op (rewrite_at t a put opts).
Proof.
  intros W Wp H R. unfold rewrite_at. rewrite put_slots_vis.
  assert (P : preserved t (put_vis t a put)).
  { destruct (put_vis_code t a put H) as (pre & post & A & B). unfold preserved. rewrite A, B. apply wclos_ctx. exact R. }
  pose proof (put_vis_wf t a put W Wp) as W'.
  destruct (opts_ok opts _ W') as [P' W'']. split; [eapply preserved_trans; eassumption|exact W''].
Qed.

(** What a rewriting of the visible entries [v] has to satisfy *)
Definition rout_ok (v : list opType) (r : rout) : Prop :=
  match r with
  | Crash => False
  | Rw a put _ _ _ => Forall wf_op put /\ (a + length put <= length v)%nat /\
                      wclos (firstn (length put) (skipn a v)) (code put)
  end.

Lemma table_step_ok body t i : Forall wf_op t ->
  (forall r, body (visible t) i = Some r -> rout_ok (visible t) r) ->
  table_step body t i <> Broken /\
  forall t' nx ch, table_step body t i = Next t' nx ch -> preserved t t' /\ Forall wf_op t'.
Proof.
  intros W H. unfold table_step. destruct (body (visible t) i) as [[|a put os nx ch]|]; (split; [|intros t' nx' ch' E]); try discriminate.
  - exfalso. exact (H Crash eq_refl).
  - injection E as <- <- <-. destruct (H _ eq_refl) as (Wp & L & R). apply rewrite_ok; assumption.
Qed.

(** the window [w] starts at [i] *)
Definition win_ok (i : nat) (w : list opType) (r : rout) : Prop :=
  match r with
  | Crash => False
  | Rw a put _ _ _ => a = i /\ Forall wf_op put /\ (length put <= length w)%nat /\
                      wclos (firstn (length put) w) (code put)
  end.

Lemma win_rout i w v r : (exists q, skipn i v = w ++ q) -> w <> [] -> win_ok i w r -> rout_ok v r.
Proof.
  intros [q E] N H. destruct r as [|a put os nx ch]; [exact H|]. destruct H as (-> & W & L & R).
  assert (Hl : (length w <= length v - i)%nat) by (rewrite <- skipn_length, E, app_length; lia).
  assert (Hw : (0 < length w)%nat) by (destruct w; [congruence|cbn; lia]).
  split; [exact W|]. split; [lia|]. rewrite E, firstn_app. 
  replace (length put - length w)%nat with 0%nat by lia. cbn [firstn]. rewrite app_nil_r. exact R.
Qed.
