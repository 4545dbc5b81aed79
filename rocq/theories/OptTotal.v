(** The optimization of a program without troublesome instructions ends: the loops. *)

From Coq Require Import ZArith Bool List Lia ZifyBool.
From Verif Require Import Words State Opcodes Machine VmSpec EncodeSpec OptSpec OptStep OptPassSpec OptExcept OptTable PoptModel PoptLongModel
  StrOptSpec StrOptProofs OptRunSpec OptRun OptPlain OptMeasure OptEnds.
Import ListNotations.
Open Scope Z_scope.

Lemma slots_length t : (length (slots t) <= length t)%nat.
Proof.
  unfold slots. generalize 0%nat. induction t as [|o t IH]; intros q; cbn [slots_from length]; [lia|].
  destruct (ends_before _); cbn [length]; [lia|]. destruct (ends_after _); cbn [length]; [lia|].
  specialize (IH (S q)). destruct (skipped _); cbn [length]; lia.
Qed.
Lemma idle_down step : (forall t i, Forall tame t -> step t i = if (length (slots t) <=? i)%nat then Done else Next t (S i) 0) -> step_down step.
Proof.
  intros H t i t' nx ch L T. rewrite (H t i T). destruct (_ <=? _)%nat eqn:E; [discriminate|]. intros [= <- <- <-].
  pose proof (slots_length t). apply Nat.leb_gt in E. split; [lia|]. split; [reflexivity|]. left. auto.
Qed.
Lemma eight_down : Forall (fun p => step_down (fst p)) eight.
Proof.
  unfold eight. repeat apply Forall_cons; try apply Forall_nil; cbn [fst];
    first [apply idle_down; first [apply long_unary_idle|apply long_binary_idle]|apply table_down;
      first [apply unary_down|apply binary_down|apply branch_down|apply stack_down|apply load_down|apply store_down]].
Qed.
(** a state of the passes *)
Definition ready (b : Z) (t : list opType) : Prop := length t = 16%nat /\ within_limit b t /\ Forall wf_op t.
Definition lands (b : Z) (t : list opType) (c : nat) (r : lout) : Prop :=
  exists t' c', r = Result t' c' /\ ready b t' /\ fe t' = fe t /\ (c' = c /\ (M t' <= M t)%nat \/ (M t' < M t)%nat).
Definition whole (p : (list opType -> nat -> tout) * nat) : Prop := step_down (fst p) /\ stays (fst p) /\ sound_step (fst p).
Lemma eight_whole : Forall whole eight.
Proof.
  pose proof eight_down as A. pose proof eight_stays as B. pose proof eight_sound as C. rewrite Forall_forall in *.
  intros p I. split; [apply A, I|]. split; [apply B, I|apply C, I].
Qed.
Lemma pass_lands b p : b < 32768 -> whole p -> forall n t i c, ready b t -> (20 * M t + (20 - i) < n)%nat -> lands b t c (pass n (fst p) t i c).
Proof.
  intros Lt (Dn & Tm & Sd & Ln). induction n as [|n IH]; intros t i c (R1 & R2 & R3) B; [lia|]. cbn [pass].
  assert (Hv : isum (visible t) < 32768) by (pose proof (visible_isum t); destruct R2; lia).
  destruct (Sd t i R3 (plain_harmless _ (visible_tame _ (proj1 R2)) Hv)) as (Nb & Pr). destruct (fst p t i) as [| |t1 nx ch] eqn:E.
  - exists t, c. split; [reflexivity|]. split; [split; [exact R1|split; [exact R2|exact R3]]|]. split; [reflexivity|]. left. lia.
  - congruence.
  - destruct (Dn t i t1 nx ch R1 (proj1 R2) E) as (Hi & Hf & Hd). destruct (Pr _ _ _ eq_refl) as (_ & Wf).
    assert (R : ready b t1) by (split; [rewrite (Ln _ _ _ _ _ E); exact R1|split; [exact (Tm _ _ _ _ _ _ R2 E)|exact Wf]]).
    assert (B1 : (20 * M t1 + (20 - nx) < n)%nat) by (destruct Hd as [(-> & -> & _)|Hd]; lia).
    destruct (IH t1 nx (c + ch)%nat R B1) as (t' & c' & E' & R' & F' & D'). exists t', c'. split; [exact E'|]. split; [exact R'|].
    split; [congruence|]. destruct Hd as [(Hm & _ & ->)|Hd]; destruct D' as [(-> & D')|D']; lia.
Qed.
Lemma M_bound t : length t = 16%nat -> (M t <= 16 * 216)%nat.
Proof.
  intros L. assert (G : forall u, (length u <= 16)%nat -> (M u <= length u * 216)%nat).
  { induction u as [|o u IH]; intros Lu; cbn [M length] in *; [lia|]. assert (Wo : (W (length u) o <= 216)%nat).
    { unfold W. assert (Wt : (wt (op o) <= 2)%nat) by (unfold wt; destruct (_ =? _); [lia|]; destruct (_ || _); lia). destruct (pushb _); lia. }
    specialize (IH ltac:(lia)). lia. }
  rewrite <- L at 1. apply G. lia.
Qed.
(** enough iterations *)
Definition ENOUGH : nat := 20 * (16 * 216) + 21.
Lemma passes_lands b n ps : b < 32768 -> (ENOUGH <= n)%nat -> Forall whole ps -> forall t c, ready b t -> lands b t c (run_passes n ps t c).
Proof.
  intros Lt N. induction 1 as [|(step, i) ps H _ IH]; intros t c R; cbn [run_passes].
  - exists t, c. split; [reflexivity|]. split; [exact R|]. split; [reflexivity|]. left. lia.
  - pose proof (M_bound t (proj1 R)) as Mb.
    destruct (pass_lands b (step, i) Lt H n t i c R) as (t1 & c1 & E1 & R1 & F1 & D1); [unfold ENOUGH in N; lia|].
    cbn [fst] in E1. rewrite E1. cbn [andthen]. destruct (IH t1 c1 R1) as (t2 & c2 & E2 & R2 & F2 & D2). exists t2, c2.
    split; [exact E2|]. split; [exact R2|]. split; [congruence|]. destruct D1 as [(-> & D1)|D1]; destruct D2 as [(-> & D2)|D2]; lia.
Qed.
Lemma sweeps_lands b n : b < 32768 -> (ENOUGH <= n)%nat -> forall m t, ready b t -> (M t < m)%nat -> exists t' c', sweeps m n t = Result t' c' /\ ready b t' /\ fe t' = fe t.
Proof.
  intros Lt N. induction m as [|m IH]; intros t R B; [lia|]. cbn [sweeps]. rewrite sweep_passes.
  destruct (passes_lands b n eight Lt N eight_whole t 0 R) as (t1 & c1 & E1 & R1 & F1 & D1). rewrite E1. destruct (c1 =? 0)%nat eqn:Z.
  - exists t1, 0%nat. auto.
  - apply Nat.eqb_neq in Z. destruct D1 as [(D1 & _)|D1]; [lia|]. destruct (IH t1 R1) as (t2 & c2 & E2 & R2 & F2); [lia|].
    exists t2, c2. split; [exact E2|]. split; [exact R2|congruence].
Qed.

(** ** The window slides over the program *)
Lemma fe_snoc t o : (fe (t ++ [o]) <= S (fe t))%nat.
Proof. induction t as [|x t IH]; cbn [app fe]; [destruct (op o =? oEND); lia|]. destruct (op x =? oEND); lia. Qed.
Lemma fe_snoc_end t : fe (t ++ [op_end]) = fe t.
Proof. induction t as [|x t IH]; cbn [app fe]; [reflexivity|]. destruct (op x =? oEND); congruence. Qed.
Lemma fill_fe n : forall t l, let '(t', l') := fill n t l in (fe t' + length l' <= fe t + length l)%nat /\ length t' = (length t + n)%nat.
Proof.
  induction n as [|n IH]; intros t l; cbn [fill]; [lia|]. destruct l as [|o l]; cbn [input_op].
  - specialize (IH (t ++ [op_end]) []). destruct (fill n _ _) as (t', l'). rewrite fe_snoc_end, app_length in IH. cbn [length] in *. lia.
  - specialize (IH (t ++ [o]) l). destruct (fill n _ _) as (t', l'). pose proof (fe_snoc t o). rewrite app_length in IH. cbn [length] in *. lia.
Qed.
Lemma fe_filter r : (fe (filter not_nop r) <= fe r)%nat.
Proof.
  induction r as [|o r IH]; cbn [filter fe]; [lia|]. destruct (op o =? oEND) eqn:E.
  - assert (Nn : not_nop o = true) by (apply Z.eqb_eq in E; unfold not_nop; rewrite E; reflexivity). rewrite Nn. cbn [fe]. rewrite E. lia.
  - destruct (not_nop o); cbn [fe]; rewrite ?E; lia.
Qed.
Lemma filter_le {A} (f : A -> bool) l : (length (filter f l) <= length l)%nat.
Proof. induction l as [|x l IH]; cbn [filter length]; [lia|]. destruct (f x); cbn [length]; lia. Qed.
Lemma loop_ends n m : (ENOUGH <= n)%nat -> (ENOUGH <= m)%nat -> forall k t l out, ready (32767 - isum l) t -> Forall tame l -> Forall wf_op l ->
  (fe t + length l < k)%nat -> exists o, optimize_loop k m n t l out = OResult o.
Proof.
  intros N Nm. induction k as [|k IH]; intros t l out R Tl Wl B; [lia|]. cbn [optimize_loop].
  pose proof (M_bound t (proj1 R)) as Mb. pose proof (isum_nonneg l) as Nl.
  destruct (sweeps_lands (32767 - isum l) n ltac:(lia) N m t R) as (t1 & c1 & E1 & (L1 & (T1 & I1) & W1) & F1); [unfold ENOUGH in Nm; lia|].
  rewrite E1. destruct t1 as [|o r]; [discriminate|]. cbv zeta. destruct (op o =? oEND) eqn:Ee; [eexists; reflexivity|].
  cbn [fe] in F1. rewrite Ee in F1. inversion_clear T1 as [|? ? _ Tr]. inversion_clear W1 as [|? ? _ Wr].
  assert (Tf : Forall tame (filter not_nop r)) by (rewrite Forall_forall in *; intros x I; apply filter_In in I; apply Tr, I).
  cbn [isum] in I1. pose proof (filter_isum not_nop r). pose proof (iw_nonneg o). pose proof (filter_wf not_nop r Wr) as Wf. pose proof (filter_le not_nop r) as Lf. cbn [length] in L1.
  unfold refill. pose proof (fill_tame (WINDOW - length (filter not_nop r)) _ _ Tf Tl) as Ft. pose proof (fill_wf (WINDOW - length (filter not_nop r)) _ _ Wf Wl) as Fw.
  pose proof (fill_fe (WINDOW - length (filter not_nop r)) (filter not_nop r) l) as Ff. pose proof (fill_isum (WINDOW - length (filter not_nop r)) (filter not_nop r) l) as Fi. destruct (fill _ _ _) as (t2, l2).
  pose proof (fe_filter r). unfold WINDOW in *. apply IH; try apply Ft; try apply Fw; [|lia]. split; [lia|]. split; [split; [apply Ft|lia]|apply Fw].
Qed.
Lemma leading_shorter l : (length (snd (leading l)) <= length l)%nat /\ (l <> [] -> (length (snd (leading l)) < length l)%nat).
Proof.
  induction l as [|o l IH]; [split; [cbn; lia|congruence]|]. cbn [leading]. destruct (_ || _); cbn [snd length]; [lia|].
  destruct (leading l) as (x, y). cbn [snd] in *. lia.
Qed.
Lemma optimize_ends : forall l k m n, has_label l -> Forall wf_op l -> plain l -> (length l <= k)%nat -> (ENOUGH <= m)%nat -> (ENOUGH <= n)%nat ->
  exists out, optimize k m n l = OResult out.
Proof.
  intros l k m n H W P Hk Hm Hn. apply (plain_tame l W) in P. destruct P as (P & Pi). unfold optimize. pose proof (leading_wf l W) as Lw. pose proof (leading_tame l P) as (Lt & Li).
  assert (Nl : l <> []) by (destruct H as (a & o & b & -> & _); destruct a; discriminate).
  pose proof (proj2 (leading_shorter l) Nl) as Ls. destruct (leading l) as (pre, r). cbn [snd] in *. unfold refill. cbn [length].
  pose proof (fill_tame (WINDOW - 0) [] r (Forall_nil _) Lt) as Ft. pose proof (fill_wf (WINDOW - 0) [] r (Forall_nil _) (proj2 Lw)) as Fw.
  pose proof (fill_fe (WINDOW - 0) [] r) as Ff. pose proof (fill_isum (WINDOW - 0) [] r) as Fi. cbn [isum] in Fi. destruct (fill _ _ _) as (t2, l2). unfold WINDOW in *. cbn [fe length] in Ff.
  destruct (loop_ends n m Hn Hm k t2 l2 []) as (o & E); [split; [lia|split; [split; [apply Ft|lia]|apply Fw]]|apply Ft|apply Fw|lia|].
  rewrite E. eexists. reflexivity.
Qed.
Lemma optimize_total : exists enough : nat, forall l k m n, has_label l -> Forall wf_op l -> plain l ->
  (length l <= k)%nat -> (enough <= m)%nat -> (enough <= n)%nat ->
  exists out, optimize k m n l = OResult out /\ preserved (upto_end l) out /\ Forall wf_op out /\ marked_ops out = marked_ops (upto_end l).
Proof.
  exists ENOUGH. intros l k m n H W P Hk Hm Hn. destruct (optimize_ends l k m n H W P Hk Hm Hn) as (out & E). exists out. split; [exact E|].
  exact (proj2 (optimize_plain l k m n H W P) out E).
Qed.
