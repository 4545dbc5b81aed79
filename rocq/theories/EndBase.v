(** The loop along the parents of a type goes on forever exactly when they lead
    back to a type. *)

From Coq Require Import ZArith Bool List Lia Relations.
From Verif Require Import Words ExprModel DeclModel EndSpec.
Import ListNotations.
Open Scope Z_scope.

Lemma as_type_done p d : (exists t, as_type p d = Done t d /\ word_of (syms d) p = Some t) \/
  (word_of (syms d) p = None /\ forall B (k : tyrec -> M B), bind (as_type p) k d <> Hang).
Proof.
  unfold as_type, word_of, bind, get_sym. destruct (nth_error (syms d) p) as [s|]; [|right; split; [reflexivity|discriminate]].
  destruct (sParm s); cbn; eauto; right; (split; [reflexivity|discriminate]).
Qed.

Lemma parent_lt l p q : parent l p q -> (p < length l /\ q < length l)%nat.
Proof.
  intros (t & s & T & P & S & _). split; [|apply nth_error_Some; congruence].
  unfold word_of in T. apply nth_error_Some. intros E. rewrite E in T. discriminate.
Qed.
Lemma parent_fun l p q q' : parent l p q -> parent l p q' -> q = q'.
Proof. intros (t & s & T & P & _) (t' & s' & T' & P' & _). congruence. Qed.

(** One turn *)
Lemma turn n p d :
  (exists q, parent (syms d) p q /\ base_loop n p d = match n with O => Hang | S n' => base_loop n' q d end) \/
  ((forall q, ~ parent (syms d) p q) /\ base_loop n p d <> Hang).
Proof.
  destruct (as_type_done p d) as [(t & E & T)|(T & E)].
  - assert (B : forall (k : tyrec -> M nat), bind (as_type p) k d = k t d) by (intros k; unfold bind; rewrite E; reflexivity).
    destruct n; cbn [base_loop]; rewrite B; clear B.
    + destruct (tPar t) as [q|] eqn:P; [|right; split; [intros q (t' & s & T' & P' & _); congruence|discriminate]].
      unfold bind, get_sym. destruct (nth_error (syms d) q) as [s|] eqn:S.
      * destruct ((sKind s =? sTYPE) && negb (tType t =? sSET)) eqn:C.
        -- left. exists q. split; [exists t, s; apply andb_prop in C; destruct C as (C1 & C2); apply Z.eqb_eq in C1;
             apply negb_true_iff, Z.eqb_neq in C2; auto|reflexivity].
        -- right. split; [|discriminate]. intros q' (t' & s' & T' & P' & S' & K & N).
           assert (t' = t) by congruence. subst t'. assert (q' = q) by congruence. subst q'. assert (s' = s) by congruence. subst s'.
           unfold sTYPE, sSET in C. rewrite K in C. cbn in C. apply negb_false_iff, Z.eqb_eq in C. contradiction.
      * right. split; [|discriminate]. intros q' (t' & s' & T' & P' & S' & _). assert (t' = t) by congruence. subst t'. congruence.
    + destruct (tPar t) as [q|] eqn:P; [|right; split; [intros q (t' & s & T' & P' & _); congruence|discriminate]].
      unfold bind, get_sym. destruct (nth_error (syms d) q) as [s|] eqn:S.
      * destruct ((sKind s =? sTYPE) && negb (tType t =? sSET)) eqn:C.
        -- left. exists q. split; [exists t, s; apply andb_prop in C; destruct C as (C1 & C2); apply Z.eqb_eq in C1;
             apply negb_true_iff, Z.eqb_neq in C2; auto|reflexivity].
        -- right. split; [|discriminate]. intros q' (t' & s' & T' & P' & S' & K & N).
           assert (t' = t) by congruence. subst t'. assert (q' = q) by congruence. subst q'. assert (s' = s) by congruence. subst s'.
           unfold sTYPE, sSET in C. rewrite K in C. cbn in C. apply negb_false_iff, Z.eqb_eq in C. contradiction.
      * right. split; [|discriminate]. intros q' (t' & s' & T' & P' & S' & _). assert (t' = t) by congruence. subst t'. congruence.
  - right. split; [intros q (t & s & T' & _); congruence|]. destruct n; cbn [base_loop]; apply E.
Qed.

(** A walk along the parents *)
Inductive walk (l : list sym) : nat -> list nat -> Prop :=
| walk_end p q : parent l p q -> walk l p [p; q]
| walk_on p q w : parent l p q -> walk l q w -> walk l p (p :: w).

Lemma walked d n : forall p, base_loop n p d = Hang -> exists w, walk (syms d) p w /\ length w = S (S n).
Proof.
  induction n as [|n IH]; intros p H.
  - destruct (turn 0 p d) as [(q & P & _)|(_ & N)]; [|contradiction].
    exists [p; q]. split; [constructor; exact P|reflexivity].
  - destruct (turn (S n) p d) as [(q & P & E)|(_ & N)]; [|contradiction].
    rewrite E in H. destruct (IH q H) as (w & W & L). exists (p :: w). split; [econstructor; eauto|cbn; lia].
Qed.
Lemma walk_in l p w : walk l p w -> forall x, In x w -> (x < length l)%nat.
Proof.
  induction 1 as [p q P|p q w P W IH]; intros x I.
  - destruct (parent_lt _ _ _ P) as (A & B). destruct I as [<-|[<-|[]]]; assumption.
  - destruct (parent_lt _ _ _ P) as (A & B). destruct I as [<-|I]; auto.
Qed.
Lemma walk_head l p w : walk l p w -> exists w', w = p :: w'.
Proof. destruct 1; eauto. Qed.
Lemma walk_reach l p w : walk l p w -> forall x, In x w -> clos_refl_trans_1n nat (parent l) p x.
Proof.
  induction 1 as [p q P|p q w P W IH]; intros x I.
  - destruct I as [<-|[<-|[]]]; [apply rt1n_refl|]. econstructor; [exact P|apply rt1n_refl].
  - destruct I as [<-|I]; [apply rt1n_refl|]. econstructor; [exact P|auto].
Qed.
(** From one place of a walk to a later one *)
Lemma walk_between l p w : walk l p w -> forall a w1 w2 w3, w = w1 ++ a :: w2 ++ a :: w3 -> clos_trans_1n nat (parent l) a a.
Proof.
  assert (J : forall p q x, parent l p q -> clos_refl_trans_1n nat (parent l) q x -> clos_trans_1n nat (parent l) p x).
  { intros p0 q x P R. revert p0 P. induction R as [q|q r x Q R IH]; intros p0 P; [constructor; exact P|].
    eapply Relation_Operators.t1n_trans; [exact P|apply IH; exact Q]. }
  induction 1 as [p q P|p q w P W IH]; intros a w1 w2 w3 E.
  - destruct w1 as [|x w1].
    + cbn in E. injection E as <- E. destruct w2 as [|y w2]; cbn in E.
      * injection E as <- E. constructor. exact P.
      * injection E as _ E. destruct w2; discriminate.
    + cbn in E. injection E as <- E. destruct w1 as [|y w1]; cbn in E.
      * injection E as <- E. destruct w2; discriminate.
      * injection E as _ E. destruct w1; discriminate.
  - destruct w1 as [|x w1].
    + cbn in E. injection E as <- E. apply (J p q p P). eapply walk_reach; [exact W|]. rewrite E. apply in_or_app. right. left. reflexivity.
    + cbn in E. injection E as <- E. eapply IH. exact E.
Qed.

Lemma not_nodup (w : list nat) : ~ NoDup w -> exists a w1 w2 w3, w = w1 ++ a :: w2 ++ a :: w3.
Proof.
  induction w as [|x w IH]; intros H; [destruct (H (NoDup_nil _))|].
  destruct (in_dec Nat.eq_dec x w) as [I|I].
  - destruct (in_split _ _ I) as (l1 & l2 & ->). exists x, [], l1, l2. reflexivity.
  - destruct IH as (a & w1 & w2 & w3 & ->); [intros D; apply H; constructor; assumption|].
    exists a, (x :: w1), w2, w3. reflexivity.
Qed.
Lemma twice (N : nat) (w : list nat) : (forall x, In x w -> (x < N)%nat) -> (N < length w)%nat ->
  exists a w1 w2 w3, w = w1 ++ a :: w2 ++ a :: w3.
Proof.
  intros B L. apply not_nodup. intros D.
  assert (I : incl w (seq 0 N)) by (intros x Ix; apply in_seq; specialize (B x Ix); lia).
  pose proof (NoDup_incl_length D I) as Le. rewrite seq_length in Le. lia.
Qed.

(** The parents go around. *)
Lemma always l p c x : clos_refl_trans_1n nat (parent l) p c -> clos_trans_1n nat (parent l) c c ->
  clos_refl_trans_1n nat (parent l) p x -> exists y, parent l x y.
Proof.
  intros R C X. revert R. 
  assert (K : forall c, clos_trans_1n nat (parent l) c c -> forall x, clos_refl_trans_1n nat (parent l) c x -> 
     (exists y, parent l x y) /\ clos_refl_trans_1n nat (parent l) x c).
  { clear. intros c C x X. assert (C0 : exists y, parent l c y /\ clos_refl_trans_1n nat (parent l) y c).
    { inversion C as [y P|y z P T]; subst; [exists c; split; [exact P|apply rt1n_refl]|]. exists y. split; [exact P|].
      clear - T. induction T as [a b Q|a b e Q T IH]; [econstructor; [exact Q|apply rt1n_refl]|econstructor; eauto]. }
    destruct C0 as (y & P & Q).
    assert (G : forall a, clos_refl_trans_1n nat (parent l) a c -> forall x, clos_refl_trans_1n nat (parent l) a x -> 
        (exists z, parent l x z) /\ clos_refl_trans_1n nat (parent l) x c).
    { intros a A x0 X0. revert A. induction X0 as [a|a b x0 S X0 IH]; intros A.
      - destruct A as [|b e S A]; [split; [eauto|apply rt1n_refl]|]. split; [eauto|econstructor; eauto].
      - apply IH. destruct A as [|b' e S' A].
        + rewrite <- (parent_fun _ _ _ _ P S). exact Q.
        + rewrite <- (parent_fun _ _ _ _ S' S). exact A. }
    apply (G c (rt1n_refl _ _ _) x X). }
  revert c C. induction X as [p|p q x S X IH]; intros c C R.
  - destruct R as [|q e S R]; [|eauto]. apply (K p C p (rt1n_refl _ _ _)).
  - destruct R as [|q' e S' R].
    + apply (K p C x). econstructor; eauto.
    + rewrite (parent_fun _ _ _ _ S' S) in R. eapply IH; eauto.
Qed.
Lemma around d n : forall p, (forall x, clos_refl_trans_1n nat (parent (syms d)) p x -> exists y, parent (syms d) x y) ->
  base_loop n p d = Hang.
Proof.
  induction n as [|n IH]; intros p A; destruct (A p (rt1n_refl _ _ _)) as (y & P).
  - destruct (turn 0 p d) as [(q & Q & E)|(N & _)]; [exact E|]. destruct (N y P).
  - destruct (turn (S n) p d) as [(q & Q & E)|(N & _)]; [|destruct (N y P)]. rewrite E. apply IH.
    intros x X. apply A. econstructor; eauto.
Qed.

Lemma base_hangs p d : base_type p d = Hang <-> circular (syms d) p.
Proof.
  unfold base_type, bind, nsym. split.
  - intros H. destruct (walked d _ p H) as (w & W & L).
    destruct (twice (length (syms d)) w (walk_in _ _ _ W)) as (a & w1 & w2 & w3 & E); [lia|].
    exists a. split.
    + eapply walk_reach; [exact W|]. rewrite E. apply in_or_app. right. left. reflexivity.
    + eapply walk_between; [exact W|exact E].
  - intros (a & R & C). apply around. intros x X. exact (always _ p a x R C X).
Qed.
