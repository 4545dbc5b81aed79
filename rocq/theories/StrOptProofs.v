(** The pass for strings *)

From Coq Require Import ZArith Bool List Lia ZifyBool Relations.Relation_Operators.
From Verif Require Import Words Opcodes Machine PoptModel PoptLongModel OptTable StrOptModel StrOptSpec.
From Verif Require StringModel.
Import ListNotations.
Open Scope Z_scope.

Lemma idle_skipped o : skipped (op o) = true -> idle o.
Proof. unfold skipped, idle. lia. Qed.

(** ** One deletion *)

(** The entries from position [i] on *)
Lemma visible_from t : forall i a, nth_error (visible t) i = Some a ->
  exists pre c, t = pre ++ a :: c /\ skipped (op a) = false /\ ends_before (op a) = false /\
    (ends_after (op a) = false -> forall k, nth_error (visible t) (S i + k) = nth_error (visible c) k) /\
    (ends_after (op a) = false -> forall k put, put_vis t (S i + k) put = pre ++ a :: put_vis c k put).
Proof.
  induction t as [|o t IH]; intros i a H; cbn [visible] in H; [destruct i; discriminate|].
  destruct (ends_before (op o)) eqn:E1; [destruct i; discriminate|]. destruct (ends_after (op o)) eqn:E2.
  { destruct i; cbn [nth_error] in H; [|destruct i; discriminate H]. injection H as <-.
    exists [], t. split; [reflexivity|]. split; [rewrite skipped_live, ends_after_live by exact E2; reflexivity|].
    split; [exact E1|]. split; congruence. }
  destruct (skipped (op o)) eqn:E3.
  { destruct (IH _ _ H) as (pre & c & -> & S1 & S2 & S3 & S4). exists (o :: pre), c. split; [reflexivity|]. split; [exact S1|]. split; [exact S2|].
    cbn [visible put_vis app]. rewrite E1, E2, E3. split; [exact S3|]. intros Q k put. rewrite S4 by exact Q. reflexivity. }
  destruct i as [|i].
  { injection H as <-. exists [], t. split; [reflexivity|]. split; [exact E3|]. split; [exact E1|].
    cbn [visible put_vis app]. rewrite E1, E2, E3. split; intros _ k; [reflexivity|intros put; reflexivity]. }
  cbn [nth_error] in H. destruct (IH _ _ H) as (pre & c & -> & S1 & S2 & S3 & S4). exists (o :: pre), c. split; [reflexivity|]. split; [exact S1|]. split; [exact S2|].
  cbn [visible put_vis app]. rewrite E1, E2, E3. split; [exact S3|]. intros Q k put. cbn [Nat.add]. change (S (i + k)) with (S i + k)%nat. rewrite S4 by exact Q. reflexivity.
Qed.
Lemma visible_next t a : nth_error (visible t) 0 = Some a ->
  exists b c, t = b ++ a :: c /\ Forall idle b /\
    (ends_after (op a) = false -> forall k, nth_error (visible t) (S k) = nth_error (visible c) k) /\
    (ends_after (op a) = false -> forall q, put_vis t 0 [q] = b ++ q :: c).
Proof.
  induction t as [|o t IH]; intros H; cbn [visible] in H; [discriminate|].
  destruct (ends_before (op o)) eqn:E1; [discriminate|]. destruct (ends_after (op o)) eqn:E2.
  { injection H as <-. exists [], t. split; [reflexivity|]. split; [constructor|]. split; congruence. }
  destruct (skipped (op o)) eqn:E3.
  { destruct (IH H) as (b & c & -> & S1 & S2 & S3). exists (o :: b), c. split; [reflexivity|]. split; [constructor; [apply idle_skipped, E3|exact S1]|].
    cbn [visible put_vis app]. rewrite E1, E2, E3. split; [exact S2|]. intros Q q. rewrite S3 by exact Q. reflexivity. }
  injection H as <-. exists [], t. split; [reflexivity|]. split; [constructor|].
  cbn [visible put_vis app]. rewrite E1, E2, E3. split; intros _; [reflexivity|]. intros q. f_equal.
  destruct t as [|o' t]; [reflexivity|]. clear. revert o'. induction t as [|o'' t IH]; intros o'; cbn [put_vis];
    (destruct (ends_before (op o')); [reflexivity|]); (destruct (ends_after (op o')); [reflexivity|]);
    (destruct (skipped (op o')); [|reflexivity]); [reflexivity|]. f_equal. apply IH.
Qed.

Lemma used_visible v c : (forall k, nth_error v k = nth_error (visible c) k) ->
  (match nth_error v 0, nth_error v 1 with Some p, Some q => string_load p && lib_call copy_calls q | _, _ => false end = true \/
   match nth_error v 0, nth_error v 1, nth_error v 2 with
   | Some p, Some a, Some q => string_load p && one_of [oLA; oLAS] a && lib_call [StringModel.lbSTRCPY; StringModel.lbSTRCPYX] q
   | _, _, _ => false end = true) -> used_in c.
Proof.
  intros E. rewrite !E. intros H.
  assert (L : forall p, string_load p = true -> In (op p) [oLD; oLDS; oPUSH; oPUSHB] /\ ends_after (op p) = false).
  { intros p P. unfold string_load, one_of in P. cbn [existsb] in P. rewrite !orb_true_iff, !Z.eqb_eq in P.
    destruct P as [P|[P|[P|[P|P]]]]; try discriminate P; rewrite P; (split; [cbn; tauto|reflexivity]). }
  destruct (nth_error (visible c) 0) as [p|] eqn:E0; [|intuition discriminate].
  destruct (visible_next _ _ E0) as (b & c1 & -> & I0 & N0 & _).
  destruct (string_load p) eqn:Lp; [|destruct H as [H|H]; revert H; repeat (destruct (nth_error _ _)); discriminate].
  destruct (L p Lp) as (Ip & Ep). rewrite !(N0 Ep) in H.
  destruct (nth_error (visible c1) 0) as [q|] eqn:E1; [|intuition discriminate].
  destruct (visible_next _ _ E1) as (b' & c2 & -> & I1 & N1 & _).
  destruct H as [H|H].
  - apply (ui_call b p b' q c2); auto; unfold lib_call in H; cbn [copy_calls existsb andb] in H; [lia|].
    assert (X : arg2 q = 1 \/ arg2 q = 3 \/ arg2 q = 9 \/ arg2 q = 11 \/ arg2 q = 13)
      by (unfold StringModel.lbSTRCPY2, StringModel.lbSTRCPYX2, StringModel.lbSTRDUP, StringModel.lbSTRCAT, StringModel.lbSTRCMP in H; lia).
    cbn. intuition.
  - destruct (one_of [oLA; oLAS] q) eqn:Lq; [|exfalso; revert H; clear; match goal with |- context [nth_error ?a ?b] => destruct (nth_error a b) end; cbn; discriminate].
    assert (Q : (op q = oLA \/ op q = oLAS) /\ ends_after (op q) = false).
    { unfold one_of in Lq. cbn [existsb] in Lq. rewrite !orb_true_iff, !Z.eqb_eq in Lq. destruct Lq as [P|[P|P]]; try discriminate P; rewrite P; auto. }
    destruct Q as (Iq & Eq). rewrite (N1 Eq) in H.
    destruct (nth_error (visible c2) 0) as [z|] eqn:E2; [|discriminate H].
    destruct (visible_next _ _ E2) as (b'' & c3 & -> & I2 & _ & _).
    apply (ui_copy b p b' q b'' z c3); auto; unfold lib_call in H; cbn [existsb andb] in H; [lia|].
    unfold StringModel.lbSTRCPY, StringModel.lbSTRCPYX in H. lia.
Qed.

Lemma step_drops t i t' nx ch : string_step t i = Next t' nx ch ->
  nx = S i /\ (i + 2 < length (visible t))%nat /\ (t' = t /\ ch = 0%nat \/ drops t t' /\ length t' = length t /\ (length (without_nops t') < length (without_nops t))%nat).
Proof.
  unfold string_step, table_step, string_body. destruct (i + 2 <? length (visible t))%nat eqn:Li; [|discriminate]. apply Nat.ltb_lt in Li.
  rewrite Nat.add_1_r.
  destruct (nth_error (visible t) i) as [a|] eqn:Ea; [|discriminate]. destruct (nth_error (visible t) (S i)) as [b|] eqn:Eb; [|discriminate].
  assert (Stay : forall j, rewrite_at t j [] [] = t) by (intros j; unfold rewrite_at; cbn [fold_left]; apply put_slots_none).
  destruct (negb (op a =? oLAC) || negb (lib_call [StringModel.lbSTRDUP] b)) eqn:Cab.
  { intros [= <- <- <-]. split; [reflexivity|]. split; [exact Li|]. left. rewrite Stay. auto. }
  assert (Oa : op a = oLAC) by lia.
  assert (Ob : op b = oSTRLIB /\ arg2 b = 9).
  { unfold lib_call in Cab. cbn [existsb] in Cab. unfold StringModel.lbSTRDUP in Cab. lia. }
  assert (Del : case1 (visible t) i = true \/ case2 (visible t) i = true -> forall t', rewrite_at t (S i) [nop] [] = t' ->
            drops t t' /\ length t' = length t /\ (length (without_nops t') < length (without_nops t))%nat).
  { intros C u Hu. unfold rewrite_at in Hu. cbn [fold_left] in Hu. rewrite put_slots_vis in Hu.
    destruct (visible_from t i a Ea) as (pre & c & Et & Sa & Ba & Na & Pa).
    assert (Ea' : ends_after (op a) = false) by (rewrite Oa; reflexivity). specialize (Na Ea'). specialize (Pa Ea').
    pose proof (Na 0%nat) as Nb. rewrite Nat.add_0_r, Eb in Nb. symmetry in Nb.
    destruct (visible_next c b Nb) as (w & d & Ec & Iw & Nd & Pd).
    assert (Eb' : ends_after (op b) = false) by (destruct Ob as (-> & _); reflexivity). specialize (Nd Eb'). specialize (Pd Eb').
    pose proof (Pa 0%nat [nop]) as Pu. rewrite Nat.add_0_r, Hu, Pd in Pu.
    assert (U : used_in d).
    { apply (used_visible (skipn (i + 2) (visible t))).
      - intros k. rewrite <- Nd, <- Na. clear. generalize (visible t). intros v. revert v. 
        assert (Hs : forall n (v : list opType) k, nth_error (skipn n v) k = nth_error v (n + k)).
        { induction n as [|n IH]; intros v k'; [reflexivity|]. destruct v; [destruct k'; reflexivity|apply IH]. }
        intros v. rewrite Hs. f_equal. lia.
      - assert (Hs : forall n (v : list opType) k, nth_error (skipn n v) k = nth_error v (n + k)).
        { induction n as [|n IH]; intros v k'; [reflexivity|]. destruct v; [destruct k'; reflexivity|apply IH]. }
        rewrite !Hs, Nat.add_0_r. replace (i + 2 + 1)%nat with (i + 3)%nat by lia. replace (i + 2 + 2)%nat with (i + 4)%nat by lia.
        exact C. }
    subst c. split; [|split].
    - rewrite Et, Pu. apply dr_dup; auto.
    - rewrite Et, Pu, !app_length. cbn [length]. rewrite !app_length. reflexivity.
    - unfold without_nops. rewrite Et, Pu, !filter_app. cbn [filter]. rewrite !filter_app. cbn [filter nop op]. destruct Ob as (-> & _).
      replace (oNOP =? oNOP) with true by reflexivity. replace (oSTRLIB =? oNOP) with false by reflexivity. cbn [negb].
      destruct (negb (op a =? oNOP)); repeat (rewrite app_length; cbn [length]); lia. }
  destruct (case1 (visible t) i) eqn:C1.
  { intros [= <- <- <-]. split; [reflexivity|]. split; [exact Li|]. right. apply Del; auto. }
  destruct (case2 (visible t) i) eqn:C2.
  { intros [= <- <- <-]. split; [reflexivity|]. split; [exact Li|]. right. apply Del; auto. }
  intros [= <- <- <-]. split; [reflexivity|]. split; [exact Li|]. left. rewrite Stay. auto.
Qed.
Lemma step_not_broken t i : string_step t i <> Broken.
Proof.
  unfold string_step, table_step, string_body. destruct (_ <? _)%nat; [|discriminate]. repeat (destruct (nth_error _ _); [|discriminate]).
  destruct (_ || _); [discriminate|]. destruct (case1 _ _); [discriminate|]. destruct (case2 _ _); discriminate.
Qed.

(** ** The loops *)

Lemma shortened_ctx a d l l' : shortened l l' -> shortened (a ++ l ++ d) (a ++ l' ++ d).
Proof.
  induction 1 as [l l' D| |]; [|apply rt_refl|eapply rt_trans; eassumption].
  apply rt_step. inversion D as [x o y Ho|x lac b dup y O I Du U]; subst.
  - rewrite <- !app_assoc. cbn [app]. rewrite !(app_assoc a x). apply dr_nop. exact Ho.
  - rewrite <- !app_assoc. cbn [app]. rewrite <- !app_assoc. cbn [app]. rewrite !(app_assoc a x). apply dr_dup; auto.
    inversion U; subst; repeat (rewrite <- app_assoc; cbn [app]); econstructor; eassumption.
Qed.
Lemma shortened_cons o l l' : shortened l l' -> shortened (o :: l) (o :: l').
Proof. intros H. pose proof (shortened_ctx [o] [] l l' H) as X. rewrite !app_nil_r in X. exact X. Qed.

(** From here on, [marked]: entries have been overwritten *)
Definition marked (t t' : list opType) : Prop := shortened t t' /\ length t' = length t /\ (length (without_nops t') <= length (without_nops t))%nat.

Lemma pass_ok n : forall t i c, (length t - i < n)%nat ->
  exists t' c', pass n string_step t i c = Result t' c' /\ shortened t t' /\ length t' = length t /\
    (t' = t /\ c' = c \/ (length (without_nops t') < length (without_nops t))%nat).
Proof.
  induction n as [|n IH]; intros t i c H; [lia|]. cbn [pass]. destruct (string_step t i) as [| |t1 nx ch] eqn:E.
  - exists t, c. split; [reflexivity|]. split; [apply rt_refl|]. auto.
  - destruct (step_not_broken t i E).
  - destruct (step_drops _ _ _ _ _ E) as (-> & L & D).
    assert (Lv : (length (visible t) <= length t)%nat).
    { clear. induction t as [|o t IH]; cbn [visible length]; [lia|]. destruct (ends_before _); cbn [length]; [lia|]. destruct (ends_after _); cbn [length]; [lia|].
      destruct (skipped _); cbn [length]; lia. }
    assert (Lt : length t1 = length t) by (destruct D as [(-> & _)|(_ & ? & _)]; auto).
    destruct (IH t1 (S i) (c + ch)%nat ltac:(lia)) as (t' & c' & P & S1 & S2 & S3). exists t', c'. split; [exact P|].
    destruct D as [(-> & ->)|(D & _ & D')].
    + split; [exact S1|]. split; [exact S2|]. destruct S3 as [(-> & ->)|S3]; [left; split; [reflexivity|lia]|right; exact S3].
    + split; [eapply rt_trans; [apply rt_step, D|exact S1]|]. split; [lia|]. right. destruct S3 as [(-> & _)|S3]; lia.
Qed.
Lemma sweeps_ok n m : forall t, (length t < n)%nat -> (length (without_nops t) < m)%nat ->
  exists t', string_sweeps m n t = Result t' 0 /\ shortened t t' /\ length t' = length t.
Proof.
  induction m as [|m IH]; intros t H H'; [lia|]. cbn [string_sweeps].
  destruct (pass_ok n t 0 0 ltac:(lia)) as (t1 & c1 & -> & S1 & S2 & S3).
  destruct (c1 =? 0)%nat eqn:E; [exists t1; auto|]. apply Nat.eqb_neq in E.
  destruct S3 as [(_ & ->)|S3]; [congruence|].
  destruct (IH t1 ltac:(lia) ltac:(lia)) as (t' & P & Q1 & Q2). exists t'. split; [exact P|]. split; [eapply rt_trans; eassumption|lia].
Qed.

Lemma upto_drops l l' : drops l l' -> shortened (upto_end l) (upto_end l') /\ (length (upto_end l') <= length (upto_end l))%nat.
Proof.
  assert (U : forall c, used_in c -> used_in (upto_end c)).
  { assert (Ib : forall b c, Forall idle b -> upto_end (b ++ c) = b ++ upto_end c).
    { induction b as [|o b IH]; intros c I; [reflexivity|]. inversion I; subst. cbn [app upto_end]. rewrite IH by assumption.
      replace (op o =? oEND) with false; [reflexivity|]. match goal with H : idle o |- _ => destruct H as [-> | ->]; reflexivity end. }
    assert (In_ : forall p l, In (op p) [oLD; oLDS; oPUSH; oPUSHB] \/ op p = oSTRLIB \/ op p = oLA \/ op p = oLAS -> upto_end (p :: l) = p :: upto_end l).
    { intros p l0 H. cbn [upto_end]. replace (op p =? oEND) with false; [reflexivity|]. cbn [In] in H. unfold oLD, oLDS, oPUSH, oPUSHB, oSTRLIB, oLA, oLAS, oEND in *. lia. }
    intros c H. inversion H as [b p b' q d I1 P I2 Q A|b p b' a b'' q d I1 P I2 A I3 Q B]; subst.
    - rewrite (Ib b) by assumption. rewrite In_ by auto. rewrite (Ib b') by assumption. rewrite In_ by auto. apply ui_call; assumption.
    - rewrite (Ib b) by assumption. rewrite In_ by auto. rewrite (Ib b') by assumption. rewrite In_ by tauto. rewrite (Ib b'') by assumption. rewrite In_ by auto. apply ui_copy; assumption. }
  intros D. inversion D as [x o y Ho|x lac b dup y O I Du Us]; subst.
  - clear D U. induction x as [|h x IH]; cbn [app upto_end].
    + rewrite Ho. cbn. split; [apply rt_step, (dr_nop [] o); exact Ho|cbn [length]; lia].
    + destruct (op h =? oEND); [split; [apply rt_refl|lia]|]. destruct IH as (A & B). split; [apply shortened_cons, A|cbn [length]; lia].
  - clear D. induction x as [|h x IH]; cbn [app upto_end].
    + rewrite O. cbn [Z.eqb]. replace (oLAC =? oEND) with false by reflexivity.
      assert (E : forall o, op o <> oEND -> upto_end (b ++ o :: y) = b ++ o :: upto_end y).
      { clear - I. intros o Ho. induction I as [|h b Ih I IH]; cbn [app upto_end]; [apply Z.eqb_neq in Ho; rewrite Ho; reflexivity|].
        rewrite IH. replace (op h =? oEND) with false; [reflexivity|]. destruct Ih as [-> | ->]; reflexivity. }
      rewrite !E; [|cbn; discriminate|destruct Du as (-> & _); discriminate]. split; [|cbn [length]; rewrite !app_length; cbn [length]; lia].
      apply rt_step. apply (dr_dup [] lac b dup (upto_end y)); auto.
    + destruct (op h =? oEND); [split; [apply rt_refl|lia]|]. destruct IH as (A & B). split; [apply shortened_cons, A|cbn [length]; lia].
Qed.
Lemma upto_shortened l l' : shortened l l' -> shortened (upto_end l) (upto_end l') /\ (length (upto_end l') <= length (upto_end l))%nat.
Proof.
  induction 1 as [l l' D| |x y z _ (A & B) _ (C & D)]; [apply upto_drops, D|split; [apply rt_refl|lia]|].
  split; [eapply rt_trans; eassumption|lia].
Qed.
Lemma nops_shortened l : shortened l (filter not_nop l).
Proof.
  induction l as [|o l IH]; [apply rt_refl|]. cbn [filter]. unfold not_nop at 1. destruct (op o =? oNOP) eqn:E; cbn [negb].
  - eapply rt_trans; [apply rt_step, (dr_nop [] o l); lia|exact IH].
  - apply shortened_cons, IH.
Qed.
Lemma upto_fill n : forall t l, let '(t', l') := fill n t l in upto_end (t' ++ l') = upto_end (t ++ l) /\ length t' = (n + length t)%nat.
Proof.
  induction n as [|n IH]; intros t l; cbn [fill]; [auto|]. destruct (input_op l) as (o, r) eqn:E.
  specialize (IH (t ++ [o]) r). destruct (fill n (t ++ [o]) r) as (t', l'). destruct IH as (A & B). rewrite app_length in B. cbn [length] in B. split; [|lia].
  rewrite A, <- app_assoc. cbn [app]. destruct l as [|x l]; cbn [input_op] in E; injection E as <- <-; [|reflexivity].
  rewrite app_nil_r. clear. induction t as [|h t IH]; [reflexivity|]. cbn [app upto_end]. rewrite IH. reflexivity.
Qed.

Lemma loop_ok n m k : (WINDOW < n)%nat -> (WINDOW < m)%nat -> forall t l out, length t = WINDOW -> (length (upto_end (t ++ l)) <= k)%nat ->
  exists res, string_loop k m n t l out = OResult (out ++ res) /\ shortened (upto_end (t ++ l)) res.
Proof.
  intros Hn Hm. induction k as [|k IH]; intros t l out Lt Lk.
  { exfalso. destruct (t ++ l) as [|o x]; cbn [upto_end] in Lk; [cbn in Lk; lia|]. destruct (op o =? oEND); cbn in Lk; lia. }
  cbn [string_loop].
  assert (Lw : (length (without_nops t) <= length t)%nat).
  { clear. unfold without_nops. induction t as [|o t IH]; [cbn; lia|]. cbn [filter length]. destruct (negb _); cbn [length]; lia. }
  destruct (sweeps_ok n m t ltac:(lia) ltac:(lia)) as (t' & -> & S1 & S2).
  pose proof (shortened_ctx [] l _ _ S1) as S3. cbn [app] in S3. destruct (upto_shortened _ _ S3) as (U1 & U2).
  destruct t' as [|o r]; [cbn in S2; rewrite Lt in S2; discriminate|].
  cbn [app upto_end] in U1, U2. destruct (op o =? oEND) eqn:E.
  - exists [o]. unfold not_nop. replace (op o =? oNOP) with false by (unfold oNOP, oEND in *; lia). cbn [negb]. split; [reflexivity|exact U1].
  - pose proof (shortened_ctx [] l _ _ (nops_shortened r)) as S4. cbn [app] in S4. destruct (upto_shortened _ _ S4) as (V1 & V2).
    assert (Lf : (length (filter not_nop r) <= WINDOW)%nat).
    { assert (X : (length (filter not_nop r) <= length r)%nat) by (clear; induction r as [|x r IH]; [cbn; lia|]; cbn [filter length]; destruct (not_nop x); cbn [length]; lia).
      cbn [length] in S2. lia. }
    unfold refill. pose proof (upto_fill (WINDOW - length (filter not_nop r)) (filter not_nop r) l) as F.
    destruct (fill _ _ _) as (t2, l2). destruct F as (F1 & F2).
    destruct (IH t2 l2 (if not_nop o then out ++ [o] else out)) as (res & P & Q); [lia|rewrite F1; cbn [length] in U2; lia|].
    rewrite F1 in Q. unfold not_nop in *. destruct (op o =? oNOP) eqn:N; cbn [negb] in *.
    + exists res. split; [exact P|]. eapply rt_trans; [exact U1|]. eapply rt_trans; [apply rt_step, (dr_nop [] o); lia|]. eapply rt_trans; [exact V1|exact Q].
    + exists (o :: res). rewrite P, <- app_assoc. split; [reflexivity|]. eapply rt_trans; [exact U1|]. apply shortened_cons. eapply rt_trans; [exact V1|exact Q].
Qed.

Lemma leading_label l : has_label l -> let '(pre, r) := leading l in upto_end l = pre ++ upto_end r /\ (length (upto_end r) <= length l)%nat.
Proof.
  intros (a & o & b & -> & O & N). induction a as [|h a IH]; cbn [app leading].
  - rewrite O. cbn [Z.eqb orb]. replace (oLABEL =? oLABEL) with true by reflexivity. cbn [orb upto_end app]. rewrite O.
    replace (oLABEL =? oEND) with false by reflexivity. split; [reflexivity|].
    cbn [length]. clear. induction b as [|h b IH]; cbn [upto_end length]; [lia|]. destruct (op h =? oEND); cbn [length]; lia.
  - destruct (N h (or_introl eq_refl)) as (N1 & N2). replace (op h =? oLABEL) with false by lia. replace (op h =? oEND) with false by lia. cbn [orb].
    assert (N' : forall x, In x a -> op x <> oEND /\ op x <> oLABEL) by (intros x Hx; apply N; right; exact Hx).
    specialize (IH N'). destruct (leading (a ++ o :: b)) as (pre, r). destruct IH as (A & B). cbn [upto_end]. replace (op h =? oEND) with false by lia.
    rewrite A. split; [reflexivity|cbn [length]; lia].
Qed.

Lemma string_pass_ok : forall l k m n, has_label l -> (length l <= k)%nat -> (16 < m)%nat -> (16 < n)%nat ->
  exists out, string_optimize k m n l = OResult out /\ shortened (upto_end l) out.
Proof.
  intros l k m n H Hk Hm Hn. unfold string_optimize. pose proof (leading_label l H) as Ld. destruct (leading l) as (pre, r). destruct Ld as (E & Le).
  unfold refill. pose proof (upto_fill (WINDOW - length (@nil opType)) [] r) as F. destruct (fill _ _ _) as (t, r'). destruct F as (F1 & F2). cbn [app] in F1.
  destruct (loop_ok n m k Hn Hm t r' []) as (res & -> & S1); [rewrite F2; reflexivity|rewrite F1; lia|].
  exists (pre ++ res). split; [reflexivity|]. rewrite E, <- F1. pose proof (shortened_ctx pre [] _ _ S1) as X. rewrite !app_nil_r in X. exact X.
Qed.

(** ** Code in which no LAC stands in front of STRDUP *)

Definition is_idle (o : opType) : bool := (op o =? oNOP) || (op o =? oLINE).
Fixpoint finds (p : bool) (l : list opType) : bool :=
  match l with
  | [] => false
  | o :: r => if is_idle o then finds p r
              else (p && (op o =? oSTRLIB) && (arg2 o =? 9)) || finds (op o =? oLAC) r
  end.
Lemma finds_true l : finds false l = true -> ~ no_constant_dup l.
Proof.
  assert (X : forall l p, finds p l = true -> (p = true /\ exists b dup c, l = b ++ dup :: c /\ Forall idle b /\ duplicates dup) \/
            exists a lac b dup c, l = a ++ lac :: b ++ dup :: c /\ op lac = oLAC /\ Forall idle b /\ duplicates dup).
  { clear l. induction l as [|o l IH]; intros p H; cbn [finds] in H; [discriminate|]. destruct (is_idle o) eqn:I.
    - destruct (IH _ H) as [(P & b & dup & c & -> & Ib & D)|(a & lac & b & dup & c & -> & R)].
      + left. split; [exact P|]. exists (o :: b), dup, c. split; [reflexivity|]. split; [constructor; [unfold is_idle in I; unfold idle; lia|exact Ib]|exact D].
      + right. exists (o :: a), lac, b, dup, c. split; [reflexivity|exact R].
    - apply orb_true_iff in H. destruct H as [H|H].
      + rewrite !andb_true_iff, !Z.eqb_eq in H. destruct H as ((-> & H1) & H2). left. split; [reflexivity|]. exists [], o, l. split; [reflexivity|]. split; [constructor|]. split; assumption.
      + destruct (IH _ H) as [(P & b & dup & c & -> & Ib & D)|(a & lac & b & dup & c & -> & R)].
        * right. exists [], o, b, dup, c. split; [reflexivity|]. split; [lia|]. auto.
        * right. exists (o :: a), lac, b, dup, c. split; [reflexivity|exact R]. }
  intros H N. destruct (X l false H) as [(P & _)|(a & lac & b & dup & c & E & O & I & D)]; [discriminate|]. exact (N a lac b dup c E O I D).
Qed.
Lemma finds_nop a o c : op o = oNOP -> forall p, finds p (a ++ o :: c) = finds p (a ++ c).
Proof.
  intros O. induction a as [|h a IH]; intros p; cbn [app finds]; [unfold is_idle; rewrite O; reflexivity|]. destruct (is_idle h); rewrite IH; reflexivity.
Qed.
Lemma finds_dup a lac b dup c : op lac = oLAC -> Forall idle b -> duplicates dup -> forall p, finds p (a ++ lac :: b ++ dup :: c) = true.
Proof.
  intros O I (D1 & D2). induction a as [|h a IH]; intros p; cbn [app finds].
  - unfold is_idle. rewrite O. replace ((oLAC =? oNOP) || (oLAC =? oLINE)) with false by reflexivity. replace (oLAC =? oLAC) with true by reflexivity.
    assert (X : finds true (b ++ dup :: c) = true); [|rewrite X; apply orb_true_r].
    induction I as [|h b Ih I IH]; cbn [app finds].
    + unfold is_idle. rewrite D1, D2. reflexivity.
    + replace (is_idle h) with true; [exact IH|]. unfold is_idle. destruct Ih as [-> | ->]; reflexivity.
  - destruct (is_idle h); rewrite ?IH; [reflexivity|apply orb_true_r].
Qed.
Lemma only_nops l l' : shortened l l' -> finds false l = false -> without_nops l' = without_nops l /\ finds false l' = false.
Proof.
  induction 1 as [l l' D| |x y z _ I1 _ I2]; intros F; [|auto|].
  - inversion D as [a o c Ho|a lac b dup c O I Du U]; subst.
    + rewrite finds_nop in F by exact Ho. split; [|exact F]. unfold without_nops. rewrite !filter_app. cbn [filter]. rewrite Ho. reflexivity.
    + rewrite finds_dup in F by assumption. discriminate.
  - destruct (I1 F) as (<- & F1). destruct (I2 F1) as (<- & F2). auto.
Qed.
Lemma finds_no l : no_constant_dup l -> finds false l = false.
Proof. intros N. destruct (finds false l) eqn:E; [|reflexivity]. destruct (finds_true l E N). Qed.
Lemma finds_upto l : forall p, finds p l = false -> finds p (upto_end l) = false.
Proof.
  induction l as [|o l IH]; intros p H; cbn [upto_end].
  - cbn. rewrite !andb_false_r. reflexivity.
  - cbn [finds] in H. destruct (op o =? oEND) eqn:E; cbn [finds]; destruct (is_idle o); auto; apply orb_false_iff in H; destruct H as (-> & H); cbn [orb]; auto.
Qed.
Lemma unchanged : forall l k m n out, has_label l -> (length l <= k)%nat -> (16 < m)%nat -> (16 < n)%nat -> no_constant_dup l ->
  string_optimize k m n l = OResult out -> without_nops out = without_nops (upto_end l).
Proof.
  intros l k m n out H Hk Hm Hn N E. destruct (string_pass_ok l k m n H Hk Hm Hn) as (out' & E' & S1). rewrite E in E'. injection E' as <-.
  apply (only_nops _ _ S1). apply finds_upto, finds_no, N.
Qed.
