(** Programs without troublesome instructions: no pass makes one, and none of the
    windows for which a pass is wrong occurs. *)

From Coq Require Import ZArith Bool List Lia ZifyBool.
From Verif Require Import Words State Opcodes Machine VmSpec EncodeSpec OptSpec OptStep OptPassSpec OptExcept OptTable PoptModel PoptLongModel
  StrOptSpec StrOptProofs OptRunSpec OptRun.
Import ListNotations.
Open Scope Z_scope.

Notation safe := (Forall (fun t => harmless (visible t))).
Definition tame (o : opType) : Prop := existsb (Z.eqb (op o)) troublesome = false.
Lemma tame_iff o : tame o <-> ~ In (op o) troublesome.
Proof.
  unfold tame. rewrite <- not_true_iff_false, existsb_exists. split.
  - intros H I. apply H. exists (op o). split; [exact I|apply Z.eqb_refl].
  - intros H (z & I & E). apply Z.eqb_eq in E. rewrite E in H. exact (H I).
Qed.
(** The sum of the stack adjustments *)
Definition iw (o : opType) : Z := if op o =? oINDS then Z.abs (s16 (arg2 o)) else 0.
Fixpoint isum (l : list opType) : Z := match l with [] => 0 | o :: r => iw o + isum r end.
Lemma iw_nonneg o : 0 <= iw o.
Proof. unfold iw. destruct (_ =? _); lia. Qed.
Lemma isum_nonneg l : 0 <= isum l.
Proof. induction l as [|o l IH]; cbn [isum]; [lia|]. pose proof (iw_nonneg o). lia. Qed.
Lemma isum_app a b : isum (a ++ b) = isum a + isum b.
Proof. induction a as [|o a IH]; cbn [app isum]; [reflexivity|]. lia. Qed.
Lemma isum_moves l : Forall wf_op l -> fold_right Z.add 0 (map moves l) = isum l.
Proof.
  induction 1 as [|o l W _ IH]; [reflexivity|]. cbn [map fold_right isum]. rewrite IH. f_equal. unfold moves, iw. destruct (_ =? _); [|reflexivity].
  destruct W as (_ & _ & W & _). unfold s16, u16. rewrite Z.mod_small by lia. destruct (arg2 o <? 32768); lia.
Qed.
Lemma plain_tame l : Forall wf_op l -> plain l <-> Forall tame l /\ isum l < 32768.
Proof.
  intros W. rewrite Forall_forall. unfold plain. rewrite (isum_moves l W). split; intros (H & B); (split; [|exact B]); intros o I; [apply tame_iff|apply (tame_iff o)]; apply H, I.
Qed.
Lemma s16_range x : -32768 <= s16 x < 32768.
Proof. unfold s16, u16. pose proof (Z.mod_pos_bound x 65536 ltac:(lia)). cbv zeta. destruct (_ <? _) eqn:E; lia. Qed.
Lemma s16_cong x : exists k, s16 x = x + 65536 * k.
Proof.
  unfold s16, u16. cbv zeta. pose proof (Z.div_mod x 65536 ltac:(lia)) as D. destruct (_ <? _); [exists (- (x / 65536))|exists (- (x / 65536) - 1)]; lia.
Qed.
(** the representative nearest to zero *)
Lemma s16_least n m k : m = n + 65536 * k -> Z.abs (s16 (u16 n)) <= Z.abs m.
Proof.
  intros E. assert (U : exists j, u16 n = n + 65536 * j) by (exists (- (n / 65536)); unfold u16; pose proof (Z.div_mod n 65536 ltac:(lia)); lia).
  destruct U as (j & U). destruct (s16_cong (u16 n)) as (i & C). pose proof (s16_range (u16 n)). rewrite U in C at 2. lia.
Qed.

Lemma signed16_s16 w z : signed16 w z -> s16 w = z.
Proof. intros (R & k & E). destruct (s16_cong w) as (j & C). pose proof (s16_range w). lia. Qed.

Lemma plain_harmless v : Forall tame v -> isum v < 32768 -> harmless v.
Proof.
  intros T Hs. rewrite Forall_forall in T.
  assert (K : forall o z, In o v -> op o = z -> existsb (Z.eqb z) troublesome = false) by (intros o z I E; subst z; exact (T o I)).
  assert (L : forall o zs, In o v -> In (op o) zs -> exists z, In z zs /\ existsb (Z.eqb z) troublesome = false) by (intros o zs I E; exists (op o); split; [exact E|exact (T o I)]).
  Ltac known K L I :=
    match goal with
    | E : op _ = _ |- _ => solve [specialize (K _ _ I E); discriminate K]
    | E : In (op _) _ |- _ => solve [destruct (L _ _ I E) as (zz & Iz & Ez); cbn [In] in Iz; repeat (destruct Iz as [<-|Iz]; [discriminate Ez|]); exact Iz]
    end.
  repeat split.
  1-4: destruct H as (p & q & ->); intros B;
    assert (Ia : In a (p ++ a :: b :: q)) by (apply in_or_app; cbn; tauto);
    assert (Ib : In b (p ++ a :: b :: q)) by (apply in_or_app; cbn; tauto);
    inversion B; first [known K L Ib|known K L Ia|idtac].
  { match goal with X : signed16 (arg2 a) ?x, Y : signed16 (arg2 b) ?y, Ea : op a = oINDS, Eb : op b = oINDS, R : ~ _ |- _ =>
      apply R; rewrite isum_app in Hs; cbn [isum] in Hs; pose proof (isum_nonneg p); pose proof (isum_nonneg q);
      unfold iw in Hs; rewrite Ea, Eb in Hs; cbn [Z.eqb] in Hs; change (oINDS =? oINDS) with true in Hs; cbv iota in Hs;
      rewrite (signed16_s16 _ _ X), (signed16_s16 _ _ Y) in Hs; lia end. }
  1-5: destruct H as (p & q & ->); intros B;
    assert (Ia : In a (p ++ a :: b :: o :: q)) by (apply in_or_app; cbn; tauto);
    assert (Ib : In b (p ++ a :: b :: o :: q)) by (apply in_or_app; cbn; tauto);
    assert (Io : In o (p ++ a :: b :: o :: q)) by (apply in_or_app; cbn; tauto);
    inversion B; first [known K L Io|known K L Ib|known K L Ia|match goal with D : op _ = _ \/ op _ = _ |- _ => destruct D as [D|D]; [known K L Ia|known K L Ib] end].
  - intros B. inversion B as [p o q c Hp Ho Ha E]. subst v. assert (Io : In o (p :: o :: q)) by (cbn; tauto). known K L Io.
  - intros a0 a1 b0 b1 o (p & q & ->) B. assert (Io : In o (p ++ [a0; a1; b0; b1; o] ++ q)) by (apply in_or_app; cbn; tauto).
    inversion B; known K L Io.
  - intros a0 a1 b o (p & q & ->) B. assert (Io : In o (p ++ [a0; a1; b; o] ++ q)) by (apply in_or_app; cbn; tauto).
    inversion B; known K L Io.
Qed.

(** ** No pass makes a troublesome instruction *)

Lemma visible_tame t : Forall tame t -> Forall tame (visible t).
Proof.
  induction 1 as [|o t T _ IH]; [constructor|]. cbn [visible]. destruct (ends_before _); [constructor|].
  destruct (ends_after _); [repeat constructor; exact T|]. destruct (skipped _); [exact IH|constructor; assumption].
Qed.
Lemma put_slot_tame t p o : Forall tame t -> tame o -> Forall tame (put_slot t p o).
Proof.
  intros T O. unfold put_slot. destruct (nth_error t p); [|exact T]. rewrite <- (firstn_skipn p t) in T. apply Forall_app in T.
  apply Forall_app. split; [apply T|]. constructor; [exact O|]. rewrite <- (firstn_skipn (S p) t) in T.
  destruct T as (T1 & T2). apply Forall_forall. intros x I. rewrite Forall_forall in T2. apply T2. rewrite firstn_skipn.
  clear -I. revert t I. induction p as [|p IH]; intros [|y t]; cbn [skipn]; try tauto; [intros H; right; exact H|].
  intros H. apply IH. exact H.
Qed.
Lemma put_slots_tame ps : forall t put, Forall tame t -> Forall tame put -> Forall tame (put_slots t ps put).
Proof.
  induction ps as [|p ps IH]; intros t [|o put] T P; try exact T. cbn [put_slots]. inversion_clear P. apply IH; [apply put_slot_tame|]; assumption.
Qed.
Lemma optimize_push_tame o : tame o -> tame (optimize_push o).
Proof. unfold optimize_push, tame. intros T. repeat match goal with |- context [if ?c then _ else _] => destruct c end; solve [reflexivity|exact T]. Qed.
Lemma expand_push_tame o : tame o -> tame (expand_push o).
Proof. unfold expand_push, tame. intros T. repeat match goal with |- context [if ?c then _ else _] => destruct c end; solve [reflexivity|exact T]. Qed.
Lemma opt_at_tame t k : Forall tame t -> Forall tame (opt_at t k).
Proof.
  intros T. unfold opt_at. destruct (nth_error (slots t) k) as [p|]; [|exact T]. destruct (nth_error t p) as [o|] eqn:E; [|exact T].
  apply put_slot_tame; [exact T|]. apply optimize_push_tame. rewrite Forall_forall in T. apply T. eapply nth_error_In. exact E.
Qed.
Lemma opts_tame os : forall t, Forall tame t -> Forall tame (fold_left opt_at os t).
Proof. induction os as [|k os IH]; intros t T; [exact T|]. cbn [fold_left]. apply IH, opt_at_tame, T. Qed.
Lemma rewrite_tame t a p os : Forall tame t -> Forall tame p -> Forall tame (rewrite_at t a p os).
Proof. intros T P. unfold rewrite_at. apply opts_tame, put_slots_tame; assumption. Qed.

Definition stays_tame (step : list opType -> nat -> tout) : Prop :=
  forall t i t' nx ch, Forall tame t -> step t i = Next t' nx ch -> Forall tame t'.
Definition body_tame (body : list opType -> nat -> option rout) : Prop :=
  forall v i a p os nx ch, Forall tame v -> body v i = Some (Rw a p os nx ch) -> Forall tame p.
Lemma table_tame body : body_tame body -> stays_tame (table_step body).
Proof.
  intros B t i t' nx ch T. unfold table_step. destruct (body _ _) as [[|a p os x c]|] eqn:E; try discriminate. intros [= <- _ _].
  apply rewrite_tame; [exact T|]. eapply B; [|exact E]. apply visible_tame, T.
Qed.
Lemma skipn_tame n v : Forall tame v -> Forall tame (skipn n v).
Proof. revert v. induction n as [|n IH]; intros v T; [exact T|]. destruct T; [constructor|]. apply IH. assumption. Qed.

Ltac leaf := unfold tame in *; cbn [op set_op set_arg1 set_arg2 nop] in *; first [assumption|reflexivity].
Ltac leaves := repeat apply Forall_cons; try apply Forall_nil; try leaf.
Ltac splits := repeat match goal with |- context [if ?c then _ else _] => destruct c end.
Ltac excluded D T := rewrite (dec8_inv _ _ D) in T; discriminate T.
Ltac excluded24 D T := rewrite (dec24_inv _ _ D) in T; discriminate T.

Lemma unary_tame : body_tame unary_body.
Proof.
  intros v i a p os nx ch T. unfold unary_body. pose proof (skipn_tame i v T) as T'. destruct (skipn i v) as [|x [|y r]]; try discriminate.
  inversion_clear T' as [|? ? Tx Ty']. inversion_clear Ty' as [|? ? Ty _]. intros [= E]. revert E. unfold unary_step.
  pose proof (expand_push_tame x Tx) as Tx'. unfold tame in Tx, Ty, Tx'.
  destruct (check_push x).
  - unfold unary_push. unfold u_fold, u_skip, u_drop, u_to, u_cmp, u_muldiv, u_jump, u_two, u_to, u_skip, u_drop.
    destruct (decode_op8 (op y)) as [d|] eqn:D; [destruct d; try (excluded D Ty)|destruct (decode_op24 (op y)) as [d|] eqn:D'; [destruct d; try (excluded24 D' Ty)|]];
      try (destruct (decode_op24 (op y)) as [d'|] eqn:D'; [destruct d'; try (excluded24 D' Ty)|]);
      splits; intros [= <- <- <- <- <-]; leaves.
  - splits; intros [= <- <- <- <- <-]; leaves.
Qed.
Lemma binary_tame : body_tame binary_body.
Proof.
  intros v i a p os nx ch T. unfold binary_body. pose proof (skipn_tame i v T) as T'. destruct (skipn i v) as [|x [|y [|z r]]]; try discriminate.
  inversion_clear T' as [|? ? Tx T1]. inversion_clear T1 as [|? ? Ty T2]. inversion_clear T2 as [|? ? Tz _].
  intros [= E]. revert E. unfold binary_step, stay.
  pose proof (expand_push_tame x Tx) as Tx'. pose proof (expand_push_tame y Ty) as Ty'. unfold tame in Tx, Ty, Tz, Tx', Ty'.
  destruct (_ && check_binary z).
  { unfold binary_consts, b_fold. destruct (decode_op8 (op z)) as [d|] eqn:D; [destruct d; try (excluded D Tz)|];
      splits; try discriminate; intros [= <- <- <- <- <-]; leaves. }
  destruct (_ && one_of _ y).
  { unfold binary_frame, f_zero, f_mul, f_to, f_drop, f_skip. destruct (decode_op8 (op z)) as [d|] eqn:D; [destruct d; try (excluded D Tz)|];
      splits; try discriminate; intros [= <- <- <- <- <-]; leaves. }
  destruct (check_push y && _).
  { destruct (check_address x); unfold binary_address, binary_any, x_skip, x_drop, x_to; (destruct (decode_op8 (op z)) as [d|] eqn:D; [destruct d; try (excluded D Tz)|]);
      splits; try discriminate; intros [= <- <- <- <- <-]; leaves. }
  destruct (_ && check_binary z).
  { unfold binary_swap, f_skip. destruct (check_transitive z); [intros [= <- <- <- <- <-]; leaves|]. destruct (decode_op8 (op z)) as [d|] eqn:D; [destruct d; try (excluded D Tz)|];
      splits; try discriminate; intros [= <- <- <- <- <-]; leaves. }
  destruct (op x =? oNEG) eqn:E; [apply Z.eqb_eq in E; rewrite E in Tx; discriminate Tx|]. intros [= <- <- <- <- <-]; leaves.
Qed.
Lemma branch_tame : body_tame branch_body.
Proof.
  intros v i a p os nx ch T. unfold branch_body. pose proof (skipn_tame i v T) as T'. destruct (skipn i v) as [|x [|y r]]; try discriminate.
  inversion_clear T' as [|? ? Tx Ty']. inversion_clear Ty' as [|? ? Ty _]. intros [= E]. revert E. unfold branch_step, br_cmp, br_to, br_first, stay.
  unfold tame in Tx, Ty.
  destruct (decode_op8 (op x)) as [d|] eqn:D; [destruct d; try (excluded D Tx)|]; splits; intros [= <- <- <- <- <-]; leaves.
Qed.
Lemma stack_tame : body_tame stack_body.
Proof.
  intros v i a p os nx ch T. unfold stack_body. destruct i as [|[|j]]; try discriminate.
  pose proof (skipn_tame j v T) as T'. destruct (skipn j v) as [|x [|y [|z r]]]; try discriminate.
  inversion_clear T' as [|? ? Tx T1]. inversion_clear T1 as [|? ? Ty T2]. inversion_clear T2 as [|? ? Tz _].
  intros [= E]. revert E. unfold stack_step, so_next. splits; intros [= <- <- <- <- <-]; leaves.
Qed.
Lemma load_tame : body_tame load_body.
Proof.
  intros v i a p os nx ch T. unfold load_body. pose proof (skipn_tame i v T) as T'. destruct (skipn i v) as [|x [|y r]]; try discriminate.
  inversion_clear T' as [|? ? Tx T1]. inversion_clear T1 as [|? ? Ty Tr]. intros [= E]. revert E. unfold load_step, stay.
  destruct (one_of _ x); [splits; intros [= <- <- <- <- <-]; leaves|]. destruct (check_push x); [|intros [= <- <- <- <- <-]; leaves].
  cbv zeta. destruct (unindexed (op y)) as [z|] eqn:U.
  - intros [= <- <- <- <- <-]. leaves. cbn [op]. unfold unindexed in U. unfold tame in Ty.
    repeat match type of U with
           | (if ?c then _ else _) = _ =>
             let H := fresh in destruct c eqn:H; [apply Z.eqb_eq in H; rewrite H in Ty; first [discriminate Ty|injection U as <-; reflexivity]|]
           end. discriminate U.
  - destruct r as [|z r]; [intros [= <- <- <- <- <-]; leaves|]. splits; intros [= <- <- <- <- <-]; leaves.
Qed.
Lemma store_tame : body_tame store_body.
Proof.
  intros v i a p os nx ch T. unfold store_body. pose proof (skipn_tame i v T) as T'. destruct (skipn i v) as [|x [|y r]]; try discriminate.
  inversion_clear T' as [|? ? Tx T1]. inversion_clear T1 as [|? ? Ty Tr]. intros [= E]. revert E. unfold store_step, stay.
  destruct (check_store x); [splits; intros [= <- <- <- <- <-]; leaves|].
  destruct r as [|z r]; [splits; intros [= <- <- <- <- <-]; leaves|]. inversion_clear Tr as [|? ? Tz _]. unfold tame in Tz.
  destruct (op z =? oSTSX) eqn:E1; [apply Z.eqb_eq in E1; rewrite E1 in Tz; discriminate Tz|].
  destruct (op z =? oSTSXB) eqn:E2; [apply Z.eqb_eq in E2; rewrite E2 in Tz; discriminate Tz|].
  splits; intros [= <- <- <- <- <-]; leaves.
Qed.
Lemma no_long v i o : Forall tame v -> nth_error v i = Some o -> (op o =? oLONGOP8) = false.
Proof.
  intros T E. rewrite Forall_forall in T. specialize (T o (nth_error_In _ _ E)). apply Z.eqb_neq. intros H. unfold tame in T. rewrite H in T. discriminate T.
Qed.
(** nothing to do for the passes over long operations *)
Lemma long_unary_idle t i : Forall tame t -> long_unary_step t i = if (length (slots t) <=? i)%nat then Done else Next t (S i) 0.
Proof.
  intros T. apply visible_tame in T. unfold long_unary_step. destruct (_ <=? _)%nat; [reflexivity|].
  assert (R : long_unary_rule (visible t) i = None).
  { unfold long_unary_rule. destruct i as [|j]; [reflexivity|]. destruct (nth_error (visible t) (S j)) as [o|] eqn:E; [|reflexivity].
    destruct (nth_error (visible t) j); [|reflexivity]. rewrite (no_long _ _ _ T E). reflexivity. }
  rewrite R. unfold long_unary_rest. destruct i as [|j]; [cbn; destruct (slots t); reflexivity|].
  assert (Z : run_rout t (Rw (S j) [] [] (S (S j)) 0) Next = Next t (S (S j)) 0) by (cbn [run_rout]; unfold rewrite_at; cbn [fold_left]; destruct (skipn _ _); reflexivity).
  destruct (nth_error (visible t) j) as [o1|]; [|exact Z]. destruct (nth_error (visible t) (S j)) as [o|] eqn:E; [|exact Z].
  rewrite (no_long _ _ _ T E). exact Z.
Qed.
Lemma long_binary_idle t i : Forall tame t -> long_binary_step t i = if (length (slots t) <=? i)%nat then Done else Next t (S i) 0.
Proof.
  intros T. apply visible_tame in T. unfold long_binary_step. destruct (_ <=? _)%nat; [reflexivity|].
  assert (R : long_binary_rule (visible t) i = None).
  { unfold long_binary_rule. destruct (nth_error (visible t) i) as [o|] eqn:E; [|reflexivity]. rewrite (no_long _ _ _ T E). reflexivity. }
  rewrite R. reflexivity.
Qed.
Lemma long_unary_tame : stays_tame long_unary_step.
Proof. intros t i t' nx ch T. rewrite (long_unary_idle t i T). destruct (_ <=? _)%nat; [discriminate|]. intros [= <- _ _]. exact T. Qed.
Lemma long_binary_tame : stays_tame long_binary_step.
Proof. intros t i t' nx ch T. rewrite (long_binary_idle t i T). destruct (_ <=? _)%nat; [discriminate|]. intros [= <- _ _]. exact T. Qed.

Lemma eight_tame : Forall (fun p => stays_tame (fst p)) eight.
Proof.
  unfold eight. repeat apply Forall_cons; try apply Forall_nil; cbn [fst];
    first [apply long_unary_tame|apply long_binary_tame|apply table_tame;
      first [apply unary_tame|apply binary_tame|apply branch_tame|apply stack_tame|apply load_tame|apply store_tame]].
Qed.

(** ** No pass increases the sum of the stack adjustments *)
Lemma visible_isum t : isum (visible t) <= isum t.
Proof.
  induction t as [|o t IH]; cbn [visible isum]; [lia|]. pose proof (iw_nonneg o). pose proof (isum_nonneg t).
  destruct (ends_before _); cbn [isum]; [lia|]. destruct (ends_after _); cbn [isum]; [lia|]. destruct (skipped _); cbn [isum]; lia.
Qed.
Lemma put_slot_isum t p o x : nth_error t p = Some x -> isum (put_slot t p o) + iw x = isum t + iw o.
Proof.
  intros E. unfold put_slot. rewrite E. revert p E. induction t as [|y t IH]; intros [|p] E; try discriminate; cbn [nth_error] in E.
  - injection E as ->. change (skipn 1 (x :: t)) with t. cbn [firstn app isum]. lia.
  - specialize (IH p E). change (skipn (S (S p)) (y :: t)) with (skipn (S p) t). cbn [firstn app isum]. lia.
Qed.
Lemma put_slot_same t p o q : p <> q -> nth_error (put_slot t p o) q = nth_error t q.
Proof.
  intros N. unfold put_slot. destruct (nth_error t p) as [x|] eqn:E; [|reflexivity]. revert p q E N.
  induction t as [|y t IH]; intros [|p] [|q] E N; try discriminate; try congruence; try reflexivity.
  cbn [nth_error firstn app skipn] in *. apply IH; [exact E|congruence].
Qed.
Lemma put_slots_isum ps : forall t os put, Forall2 (fun p o => nth_error t p = Some o) ps os -> NoDup ps -> (length put <= length ps)%nat ->
  isum (put_slots t ps put) + isum (firstn (length put) os) = isum t + isum put.
Proof.
  induction ps as [|p ps IH]; intros t os put A B L.
  - destruct put; [|cbn in L; lia]. cbn. lia.
  - destruct put as [|o put]; [cbn; lia|]. inversion A as [|? x ? os' Hx A' E1 E2]; subst. inversion_clear B as [|? ? F B'].
    cbn [length] in *. cbn [put_slots firstn isum]. pose proof (put_slot_isum t p o x Hx) as P.
    assert (A2 : Forall2 (fun q y => nth_error (put_slot t p o) q = Some y) ps os').
    { clear -A' F. induction A' as [|q y ps ys Hq Hs IH]; [constructor|]. constructor; [rewrite put_slot_same; [assumption|intros ->; apply F; left; reflexivity]|].
      apply IH. intros I. apply F. right. exact I. }
    assert (L2 : (length put <= length ps)%nat) by lia. specialize (IH (put_slot t p o) os' put A2 B' L2). lia.
Qed.
Lemma slots_entries t : forall q t0, (forall k, nth_error t0 (q + k) = nth_error t k) ->
  Forall2 (fun p o => nth_error t0 p = Some o) (slots_from q t) (visible t) /\ NoDup (slots_from q t) /\ Forall (fun p => q <= p)%nat (slots_from q t).
Proof.
  induction t as [|o t IH]; intros q t0 H; cbn [slots_from visible]; [repeat split; constructor|].
  assert (H0 : nth_error t0 q = Some o) by (specialize (H 0%nat); rewrite Nat.add_0_r in H; exact H).
  destruct (ends_before (op o)) eqn:E1; [repeat split; constructor|].
  destruct (ends_after (op o)); [repeat split; repeat constructor; auto; lia|].
  assert (H1 : forall k, nth_error t0 (S q + k) = nth_error t k) by (intros k; specialize (H (S k)); rewrite Nat.add_succ_r in H; exact H).
  destruct (IH (S q) t0 H1) as (A & B & C).
  assert (C' : Forall (fun p => q <= p)%nat (slots_from (S q) t)) by (eapply Forall_impl; [|exact C]; intros p Hp; cbv beta in *; lia).
  destruct (skipped (op o)); [auto|]. repeat split; [constructor; assumption| |constructor; [lia|exact C']].
  constructor; [|exact B]. intros I. rewrite Forall_forall in C. specialize (C q I). cbv beta in C. lia.
Qed.
Lemma iw_optimize o : iw (optimize_push o) = iw o.
Proof.
  unfold optimize_push. destruct (op o =? oPUSH) eqn:E; [|reflexivity]. apply Z.eqb_eq in E.
  destruct (_ && _); [unfold iw; rewrite E; reflexivity|]. destruct (_ <=? _); [unfold iw; rewrite E; reflexivity|reflexivity].
Qed.
Lemma opt_at_isum t k : isum (opt_at t k) = isum t.
Proof.
  unfold opt_at. destruct (nth_error (slots t) k) as [p|] eqn:E; [|auto]. destruct (nth_error t p) as [o|] eqn:E2; [|auto].
  pose proof (put_slot_isum t p (optimize_push o) o E2) as P. rewrite iw_optimize in P. lia.
Qed.
Lemma opts_isum os : forall t, isum (fold_left opt_at os t) = isum t.
Proof. induction os as [|k os IH]; intros t; [auto|]. cbn [fold_left]. rewrite IH. apply opt_at_isum. Qed.
Definition body_isum (body : list opType -> nat -> option rout) : Prop :=
  forall v i a p os nx ch, Forall tame v -> body v i = Some (Rw a p os nx ch) ->
    (length p <= length (skipn a v))%nat /\ isum p <= isum (firstn (length p) (skipn a v)).
Definition stays_small (step : list opType -> nat -> tout) : Prop :=
  forall t i t' nx ch, Forall tame t -> step t i = Next t' nx ch -> isum t' <= isum t.
Lemma Forall2_skip {A B} (R : A -> B -> Prop) n : forall l m, Forall2 R l m -> Forall2 R (skipn n l) (skipn n m).
Proof. induction n as [|n IH]; intros l m H; [exact H|]. destruct H; [constructor|]. cbn [skipn]. apply IH. assumption. Qed.
Lemma NoDup_skip {A} n : forall l : list A, NoDup l -> NoDup (skipn n l).
Proof. induction n as [|n IH]; intros l H; [exact H|]. destruct H; [constructor|]. cbn [skipn]. apply IH. assumption. Qed.
Lemma table_small body : body_isum body -> stays_small (table_step body).
Proof.
  intros B t i t' nx ch T. unfold table_step. destruct (body _ _) as [[|a p os x c]|] eqn:E; try discriminate. intros [= <- _ _].
  destruct (B _ _ _ _ _ _ _ (visible_tame _ T) E) as (L & D). unfold rewrite_at. rewrite opts_isum.
  destruct (slots_entries t 0 t (fun k => eq_refl)) as (A1 & A2 & _). fold (slots t) in A1, A2.
  assert (Ll : length (slots t) = length (visible t)) by (clear -A1; induction A1; cbn [length]; congruence).
  assert (Lq : (length p <= length (skipn a (slots t)))%nat) by (rewrite skipn_length in *; lia).
  pose proof (put_slots_isum (skipn a (slots t)) t (skipn a (visible t)) p (Forall2_skip _ _ _ _ A1) (NoDup_skip _ _ A2) Lq). lia.
Qed.
Lemma iw_other o z : (z =? oINDS) = false -> iw (set_op o z) = 0.
Proof. intros E. unfold iw. cbn [op set_op]. rewrite E. reflexivity. Qed.
Lemma iw_expand o : iw (expand_push o) = iw o.
Proof.
  unfold expand_push. destruct (op o =? oPUSHB) eqn:E; [apply Z.eqb_eq in E; unfold iw; rewrite E; reflexivity|].
  destruct (op o =? oUPUSHB) eqn:E2; [apply Z.eqb_eq in E2; unfold iw; rewrite E2; reflexivity|reflexivity].
Qed.
Lemma push_iw o : check_push o = true -> iw o = 0 /\ forall v, iw (set_arg2 (expand_push o) v) = 0.
Proof.
  unfold check_push, one_of. cbn [existsb]. rewrite !orb_true_iff, !Z.eqb_eq. intros H. unfold iw, expand_push.
  destruct H as [H|[H|[H|H]]]; [rewrite H; split; [reflexivity|intros v; cbn; rewrite ?H; reflexivity]..|discriminate H].
Qed.
Lemma address_iw o v : check_address o = true -> iw o = 0 /\ iw (set_arg2 o v) = 0.
Proof.
  unfold check_address, one_of. intros H. apply existsb_exists in H. destruct H as (c & I & E). apply Z.eqb_eq in E. unfold iw. cbn [op set_arg2]. rewrite E.
  cbn [In] in I. repeat (destruct I as [<-|I]; [split; reflexivity|]). destruct I.
Qed.
Lemma iw_mk z a b : (z =? oINDS) = false -> iw (mkOp z a b) = 0.
Proof. intros E. unfold iw. cbn [op]. rewrite E. reflexivity. Qed.
Lemma iw_nop : iw nop = 0. Proof. reflexivity. Qed.
(** the entries of a window *)
Ltac zeroes := rewrite ?iw_expand, ?iw_nop; repeat (rewrite iw_other by reflexivity); repeat (rewrite iw_mk by reflexivity).
Ltac window := split; [cbn [length]; lia|]; cbn [length firstn isum]; zeroes; lia.
Lemma unary_isum : body_isum unary_body.
Proof.
  intros v i a p os nx ch T. unfold unary_body. destruct (skipn i v) as [|x [|y r]] eqn:Es; try discriminate.
  intros [= E]. revert E. unfold unary_step. pose proof (iw_nonneg x) as Px. pose proof (iw_nonneg y) as Py.
  destruct (check_push x) eqn:Cx.
  - destruct (push_iw x Cx) as (X1 & X2). unfold unary_push. unfold u_fold, u_skip, u_drop, u_to, u_cmp, u_muldiv, u_jump, u_two, u_to, u_skip, u_drop.
    destruct (decode_op8 (op y)) as [d|] eqn:D;
      [assert (D0 : decode_op24 (op y) = None) by (rewrite (dec8_inv _ _ D); destruct d; reflexivity); rewrite D0; destruct d
      |destruct (decode_op24 (op y)) as [d|] eqn:D'; [destruct d|]];
      splits; intros [= <- <- <- <- <-]; rewrite Es; split; try (cbn [length]; lia); cbn [length firstn isum]; rewrite ?X2; zeroes; lia.
  - destruct (op x =? oINDS) eqn:E1; [|destruct (op x =? oINCS) eqn:E2; [|destruct (op x =? oINC) eqn:E3; [|destruct (op x =? oDEC) eqn:E4]]]; cbn [orb];
      repeat match goal with |- context [if ?c then _ else _] => destruct c eqn:?Ec end; intros [= <- <- <- <- <-]; rewrite ?Es; try window.
    + split; [cbn [length]; lia|]. cbn [length firstn isum]. apply Z.eqb_eq in E1. apply Z.eqb_eq in Ec. unfold iw. cbn [op set_arg2 arg2 nop]. rewrite Ec, E1.
      change (oINDS =? oINDS) with true. cbv iota. change (oNOP =? oINDS) with false. cbv iota.
      destruct (s16_cong (arg2 x)) as (k1 & C1). destruct (s16_cong (arg2 y)) as (k2 & C2).
      pose proof (s16_least (arg2 x + arg2 y) (s16 (arg2 x) + s16 (arg2 y)) (k1 + k2) ltac:(lia)). lia.
    + split; [cbn [length]; lia|]. cbn [length firstn isum]. apply Z.eqb_eq in E2. unfold iw at 1. cbn [op set_arg2]. rewrite E2. cbn. lia.
Qed.
Lemma binary_isum : body_isum binary_body.
Proof.
  intros v i a p os nx ch T. unfold binary_body. pose proof (skipn_tame i v T) as T'. destruct (skipn i v) as [|x [|y [|z r]]] eqn:Es; try discriminate.
  inversion_clear T' as [|? ? Tx T1]. inversion_clear T1 as [|? ? Ty T2]. inversion_clear T2 as [|? ? Tz _].
  intros [= E]. revert E. unfold binary_step, stay. pose proof (iw_nonneg x) as Px. pose proof (iw_nonneg y) as Py. pose proof (iw_nonneg z) as Pz. unfold tame in Tx, Ty, Tz.
  destruct (_ && check_binary z) eqn:C1.
  { rewrite !andb_true_iff in C1. destruct C1 as ((Cx & Cy) & _). destruct (push_iw x Cx) as (X1 & X2).
    unfold binary_consts, b_fold. destruct (decode_op8 (op z)) as [d|] eqn:D; [destruct d; try (excluded D Tz)|];
      splits; try discriminate; intros [= <- <- <- <- <-]; rewrite Es; split; try (cbn [length]; lia); cbn [length firstn isum]; rewrite ?X2; zeroes; lia. }
  clear C1. destruct (_ && one_of _ y).
  { unfold binary_frame, f_zero, f_mul, f_to, f_drop, f_skip. destruct (decode_op8 (op z)) as [d|] eqn:D; [destruct d; try (excluded D Tz)|];
      splits; try discriminate; intros [= <- <- <- <- <-]; rewrite Es; window. }
  destruct (check_push y && _).
  { destruct (check_address x) eqn:Ca; unfold binary_address, binary_any, x_skip, x_drop, x_to; (destruct (decode_op8 (op z)) as [d|] eqn:D; [destruct d; try (excluded D Tz)|]);
      splits; try discriminate; intros [= <- <- <- <- <-]; rewrite Es; split; try (cbn [length]; lia); cbn [length firstn isum];
      try (rewrite (proj2 (address_iw x _ Ca))); zeroes; lia. }
  destruct (_ && check_binary z).
  { unfold binary_swap, f_skip. destruct (check_transitive z); [intros [= <- <- <- <- <-]; rewrite Es; window|].
    destruct (decode_op8 (op z)) as [d|] eqn:D; [destruct d; try (excluded D Tz)|];
      splits; try discriminate; intros [= <- <- <- <- <-]; rewrite Es; window. }
  destruct (op x =? oNEG) eqn:E; [apply Z.eqb_eq in E; rewrite E in Tx; discriminate Tx|]. intros [= <- <- <- <- <-]; window.
Qed.
Lemma branch_isum : body_isum branch_body.
Proof.
  intros v i a p os nx ch T. unfold branch_body. pose proof (skipn_tame i v T) as T'. destruct (skipn i v) as [|x [|y r]] eqn:Es; try discriminate.
  inversion_clear T' as [|? ? Tx Ty']. intros [= E]. revert E. unfold branch_step, br_cmp, br_to, br_first, stay.
  unfold tame in Tx. pose proof (iw_nonneg x) as Px. pose proof (iw_nonneg y) as Py.
  destruct (decode_op8 (op x)) as [d|] eqn:D; [destruct d; try (excluded D Tx)|]; splits; intros [= <- <- <- <- <-]; rewrite ?Es; window.
Qed.
Lemma stack_isum : body_isum stack_body.
Proof.
  intros v i a p os nx ch T. unfold stack_body. destruct i as [|[|j]]; try discriminate.
  destruct (skipn j v) as [|x [|y [|z r]]] eqn:Es; try discriminate. pose proof (iw_nonneg x) as Px. pose proof (iw_nonneg y) as Py. pose proof (iw_nonneg z) as Pz.
  assert (Less : op z = oINDS -> s16 (arg2 z) <= -2 -> iw (set_arg2 z (u16 (arg2 z + 2))) <= iw z).
  { intros E B. unfold iw. cbn [op arg2 set_arg2]. rewrite E. change (oINDS =? oINDS) with true. cbv iota. destruct (s16_cong (arg2 z)) as (k & C).
    pose proof (s16_least (arg2 z + 2) (s16 (arg2 z) + 2) k ltac:(lia)). lia. }
  intros [= E]. revert E. unfold stack_step, so_next.
  destruct (op z =? oXCHG) eqn:E1; [splits; intros [= <- <- <- <- <-]; rewrite ?Es; window|].
  destruct (op z =? oINDS) eqn:E2; [|intros [= <- <- <- <- <-]; window]. apply Z.eqb_eq in E2. specialize (Less E2).
  destruct (s16 (arg2 z) <=? -2) eqn:E3; cbn [andb]; [apply Z.leb_le in E3; specialize (Less E3)|intros [= <- <- <- <- <-]; window].
  splits; intros [= <- <- <- <- <-]; rewrite ?Es; window.
Qed.
Lemma load_isum : body_isum load_body.
Proof.
  intros v i a p os nx ch T. unfold load_body. destruct (skipn i v) as [|x [|y r]] eqn:Es; try discriminate.
  pose proof (skipn_tame i v T) as T'. rewrite Es in T'. inversion_clear T' as [|? ? Tx T1]. inversion_clear T1 as [|? ? Ty Tr].
  pose proof (iw_nonneg x) as Px. pose proof (iw_nonneg y) as Py. intros [= E]. revert E. unfold load_step, stay.
  destruct (one_of _ x); [splits; intros [= <- <- <- <- <-]; rewrite ?Es; window|]. destruct (check_push x); [|intros [= <- <- <- <- <-]; window].
  cbv zeta. destruct (unindexed (op y)) as [z|] eqn:U.
  - intros [= <- <- <- <- <-]. rewrite Es. unfold unindexed in U.
    repeat match type of U with
           | (if ?c then _ else _) = _ => destruct c; [injection U as <-; window|]
           end. discriminate U.
  - destruct r as [|z r]; [intros [= <- <- <- <- <-]; window|]. inversion_clear Tr as [|? ? Tz _]. unfold tame in Tz.
    pose proof (iw_nonneg z). splits; intros [= <- <- <- <- <-]; rewrite ?Es; window.
Qed.
Lemma store_isum : body_isum store_body.
Proof.
  intros v i a p os nx ch T. unfold store_body. destruct (skipn i v) as [|x [|y r]] eqn:Es; try discriminate.
  pose proof (iw_nonneg x) as Px. pose proof (iw_nonneg y) as Py. intros [= E]. revert E. unfold store_step, stay.
  destruct (check_store x) eqn:Cs.
  { destruct (_ && _); intros [= <- <- <- <- <-]; rewrite ?Es; [|window]. split; [cbn [length]; lia|]. cbn [length firstn isum].
    assert (Z0 : iw (set_op y (op x)) = 0).
    { apply iw_other. unfold check_store, one_of in Cs. apply existsb_exists in Cs. destruct Cs as (c & I & E). apply Z.eqb_eq in E. rewrite E.
      cbn [In] in I. repeat (destruct I as [<-|I]; [reflexivity|]). destruct I. }
    rewrite Z0. zeroes. lia. }
  destruct r as [|z r]; [splits; intros [= <- <- <- <- <-]; window|]. pose proof (iw_nonneg z).
  splits; intros [= <- <- <- <- <-]; rewrite ?Es; window.
Qed.
Lemma long_unary_small : stays_small long_unary_step.
Proof. intros t i t' nx ch T. rewrite (long_unary_idle t i T). destruct (_ <=? _)%nat; [discriminate|]. intros [= <- _ _]. lia. Qed.
Lemma long_binary_small : stays_small long_binary_step.
Proof. intros t i t' nx ch T. rewrite (long_binary_idle t i T). destruct (_ <=? _)%nat; [discriminate|]. intros [= <- _ _]. lia. Qed.
Lemma eight_small : Forall (fun p => stays_small (fst p)) eight.
Proof.
  unfold eight. repeat apply Forall_cons; try apply Forall_nil; cbn [fst];
    first [apply long_unary_small|apply long_binary_small|apply table_small;
      first [apply unary_isum|apply binary_isum|apply branch_isum|apply stack_isum|apply load_isum|apply store_isum]].
Qed.

(** ** Hence the whole run *)
Definition within_limit (b : Z) (t : list opType) : Prop := Forall tame t /\ isum t <= b.
Notation allin b := (Forall (within_limit b)).
Definition stays (step : list opType -> nat -> tout) : Prop :=
  forall b t i t' nx ch, within_limit b t -> step t i = Next t' nx ch -> within_limit b t'.
Lemma eight_stays : Forall (fun p => stays (fst p)) eight.
Proof.
  pose proof eight_tame as A. pose proof eight_small as B. rewrite Forall_forall in *. intros p I b t i t' nx ch (T & S1) E.
  split; [exact (A p I _ _ _ _ _ T E)|]. pose proof (B p I _ _ _ _ _ T E). lia.
Qed.
Lemma pass_tame b step : stays step -> forall n t i c, within_limit b t ->
  allin b (met_pass n step t i) /\ forall t' c', pass n step t i c = Result t' c' -> within_limit b t'.
Proof.
  intros K. induction n as [|n IH]; intros t i c T; cbn [met_pass pass]; [split; [constructor|discriminate]|].
  destruct (step t i) as [| |t1 nx ch] eqn:E.
  - split; [apply Forall_cons; [exact T|apply Forall_nil]|]. intros t' c' [= <- _]. exact T.
  - split; [apply Forall_cons; [exact T|apply Forall_nil]|discriminate].
  - destruct (IH t1 nx (c + ch)%nat (K _ _ _ _ _ _ T E)) as (M & R). split; [constructor; assumption|exact R].
Qed.
Lemma passes_tame b n ps : Forall (fun p => stays (fst p)) ps -> forall t c, within_limit b t ->
  allin b (met_passes n ps t) /\ forall t' c', run_passes n ps t c = Result t' c' -> within_limit b t'.
Proof.
  induction 1 as [|(step, i) ps K _ IH]; intros t c T; cbn [met_passes run_passes].
  - split; [constructor|]. intros t' c' [= <- _]. exact T.
  - cbn [fst] in K. destruct (pass_tame b step K n t i 0 T) as (M & R). rewrite (pass_count step n t i c).
    destruct (pass n step t i 0) as [| |t1 c1]; cbn [andthen]; try (split; [rewrite app_nil_r; exact M|discriminate]).
    specialize (R _ _ eq_refl). destruct (IH t1 (c + c1)%nat R) as (M' & R'). split; [apply Forall_app; split; assumption|exact R'].
Qed.
Lemma sweeps_tame b n m : forall t, within_limit b t ->
  allin b (met_sweeps m n t) /\ forall t' c', sweeps m n t = Result t' c' -> within_limit b t'.
Proof.
  induction m as [|m IH]; intros t T; cbn [met_sweeps sweeps]; [split; [constructor|discriminate]|].
  destruct (passes_tame b n eight eight_stays t 0 T) as (M & R). rewrite <- sweep_passes in R.
  destruct (sweep n t) as [| |t1 c1]; try (split; [rewrite app_nil_r; exact M|discriminate]).
  specialize (R _ _ eq_refl). destruct (c1 =? 0)%nat.
  - split; [rewrite app_nil_r; exact M|]. intros t' c' [= <- _]. exact R.
  - destruct (IH t1 R) as (M' & R'). split; [apply Forall_app; split; assumption|exact R'].
Qed.
Lemma fill_tame n : forall t l, Forall tame t -> Forall tame l -> let '(t', l') := fill n t l in Forall tame t' /\ Forall tame l'.
Proof.
  induction n as [|n IH]; intros t l Wt Wl; cbn [fill]; [auto|]. destruct (input_op l) as (o, r) eqn:E.
  assert (W : tame o /\ Forall tame r).
  { destruct l as [|x l]; cbn [input_op] in E; injection E as <- <-; [split; [reflexivity|constructor]|inversion Wl; auto]. }
  apply IH; [apply Forall_app; split; [exact Wt|repeat constructor; apply W]|apply W].
Qed.
Lemma fill_isum n : forall t l, let '(t', l') := fill n t l in isum t' + isum l' = isum t + isum l.
Proof.
  induction n as [|n IH]; intros t l; cbn [fill]; [reflexivity|]. destruct l as [|o l]; cbn [input_op].
  - specialize (IH (t ++ [op_end]) []). destruct (fill n _ _). rewrite isum_app in IH. cbn [isum] in *. change (iw op_end) with 0 in IH. lia.
  - specialize (IH (t ++ [o]) l). destruct (fill n _ _). rewrite isum_app in IH. cbn [isum] in *. lia.
Qed.
Lemma filter_isum f r : isum (filter f r) <= isum r.
Proof. induction r as [|o r IH]; cbn [filter isum]; [lia|]. pose proof (iw_nonneg o). destruct (f o); cbn [isum]; lia. Qed.
Lemma loop_tame m n k : forall b t l, within_limit (b - isum l) t -> Forall tame l -> allin b (met_loop k m n t l).
Proof.
  induction k as [|k IH]; intros b t l T Tl; cbn [met_loop]; [constructor|]. destruct (sweeps_tame (b - isum l) n m t T) as (M & R).
  pose proof (isum_nonneg l) as Nl.
  apply Forall_app. split; [eapply Forall_impl; [|exact M]; intros u (U1 & U2); split; [exact U1|lia]|].
  destruct (sweeps m n t) as [| |t1 c1]; try constructor. specialize (R _ _ eq_refl).
  destruct t1 as [|o r]; [constructor|]. destruct (op o =? oEND); [constructor|]. destruct R as (Rt & Ri). inversion_clear Rt as [|? ? _ Tr]. cbn [isum] in Ri.
  assert (Tf : Forall tame (filter not_nop r)).
  { rewrite Forall_forall in *. intros x I. apply filter_In in I. apply Tr, I. }
  pose proof (fill_tame (WINDOW - length (filter not_nop r)) _ _ Tf Tl) as F. pose proof (fill_isum (WINDOW - length (filter not_nop r)) (filter not_nop r) l) as Fi.
  pose proof (filter_isum not_nop r). pose proof (iw_nonneg o). unfold refill. destruct (fill _ _ _) as (t2, l2).
  apply IH; [split; [apply F|lia]|apply F].
Qed.
Lemma leading_tame l : Forall tame l -> Forall tame (snd (leading l)) /\ isum (snd (leading l)) <= isum l.
Proof.
  induction 1 as [|o l T H IH]; cbn [leading]; [split; [constructor|cbn; lia]|]. pose proof (iw_nonneg o). cbn [isum].
  destruct (_ || _); [split; [exact H|cbn [snd]; lia]|]. destruct (leading l) as (x, y). cbn [snd] in *. split; [apply IH|lia].
Qed.
Lemma met_tame b k m n l : Forall tame l -> isum l <= b -> allin b (met k m n l).
Proof.
  intros T B. unfold met. pose proof (leading_tame l T) as (Tl & Ti). destruct (leading l) as (pre, r). cbn [snd] in Tl, Ti.
  pose proof (fill_tame (WINDOW - 0) [] r (Forall_nil _) Tl) as F. pose proof (fill_isum (WINDOW - 0) [] r) as Fi. unfold refill. cbn [length]. destruct (fill _ _ _) as (t2, l2).
  cbn [isum] in Fi. apply loop_tame; [split; [apply F|lia]|apply F].
Qed.
Lemma plain_safe k m n l : Forall wf_op l -> plain l -> safe (met k m n l).
Proof.
  intros W P. apply (plain_tame l W) in P. destruct P as (P & B). eapply Forall_impl; [|apply (met_tame 32767 k m n l P); lia]. intros t (T & I).
  apply plain_harmless; [apply visible_tame, T|]. pose proof (visible_isum t). lia.
Qed.
Lemma optimize_plain : forall l k m n, has_label l -> Forall wf_op l -> plain l ->
  optimize k m n l <> OBreaks /\
  forall out, optimize k m n l = OResult out -> preserved (upto_end l) out /\ Forall wf_op out /\ marked_ops out = marked_ops (upto_end l).
Proof.
  intros l k m n H W P. pose proof (plain_safe k m n l W P) as M. destruct (optimize_fine l k m n H W M) as (B & N). split; [exact B|].
  intros out E. destruct (N out E) as (N1 & N2). repeat split; try assumption. eapply optimize_marks; eassumption.
Qed.
