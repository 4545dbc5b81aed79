(** A measure for the termination of the optimizer *)

From Coq Require Import ZArith Bool List Lia ZifyBool Sorted.
From Verif Require Import Words State Opcodes Machine VmSpec EncodeSpec OptSpec OptStep OptPassSpec OptExcept OptTable PoptModel PoptLongModel
  StrOptSpec StrOptProofs OptRunSpec OptRun OptPlain.
Import ListNotations.
Open Scope Z_scope.

(** ** A measure of tables which decreases with every change *)
Definition pushb (z : Z) : bool := (z =? oPUSH) || (z =? oPUSHB) || (z =? oUPUSHB).
Definition wt (z : Z) : nat :=
  if z =? oNOP then 0 else if pushb z || existsb (Z.eqb z) [oLD; oLDB; oULDB; oLDS; oLDSB; oULDSB] then 2 else 1.
(** [d]: the distance from the end of the table *)
Definition W (d : nat) (o : opType) : nat := (100 * wt (op o) + (if pushb (op o) then d else 0))%nat.
Fixpoint M (t : list opType) : nat := match t with [] => 0%nat | o :: r => (W (length r) o + M r)%nat end.
Fixpoint Wl (ds : list nat) (os : list opType) : nat :=
  match ds, os with d :: ds', o :: os' => (W d o + Wl ds' os')%nat | _, _ => 0%nat end.
(** The position of the first END *)
Fixpoint fe (t : list opType) : nat := match t with [] => 0%nat | o :: r => if op o =? oEND then 0%nat else S (fe r) end.
Definition notend (o : opType) : Prop := (op o =? oEND) = false.

Lemma put_slot_M t p o x : nth_error t p = Some x -> (M (put_slot t p o) + W (length t - 1 - p) x = M t + W (length t - 1 - p) o)%nat.
Proof.
  intros E. unfold put_slot. rewrite E. revert p E. induction t as [|y t IH]; intros [|p] E; try discriminate.
  - cbn [nth_error] in E. injection E as ->. cbn [firstn app M length]. change (skipn 1 (x :: t)) with t. replace (S (length t) - 1 - 0)%nat with (length t) by lia. lia.
  - cbn [nth_error] in E. assert (L : (p < length t)%nat) by (apply nth_error_Some; congruence). specialize (IH p E).
    cbn [firstn app M length]. change (skipn (S (S p)) (y :: t)) with (skipn (S p) t). replace (length (firstn p t ++ o :: skipn (S p) t)) with (length t).
    + replace (S (length t) - 1 - S p)%nat with (length t - 1 - p)%nat by lia. lia.
    + rewrite app_length, firstn_length. cbn [length]. rewrite skipn_length. lia.
Qed.
Lemma put_slot_nth t p o q : p <> q -> nth_error (put_slot t p o) q = nth_error t q.
Proof.
  intros N. unfold put_slot. destruct (nth_error t p) as [x|] eqn:E; [|reflexivity]. revert p q E N.
  induction t as [|y t IH]; intros [|p] [|q] E N; try discriminate; try congruence; try reflexivity.
  cbn [nth_error firstn app skipn] in *. apply IH; [exact E|congruence].
Qed.
Lemma put_slot_fe t p o : (p < fe t)%nat -> notend o -> fe (put_slot t p o) = fe t.
Proof.
  intros L N. unfold put_slot. destruct (nth_error t p) as [x|] eqn:E; [|reflexivity]. clear E. revert p L.
  induction t as [|y t IH]; intros p L; cbn [fe] in L; [lia|]. destruct (op y =? oEND) eqn:Ey; [lia|].
  destruct p as [|p]; cbn [firstn app skipn fe]; [unfold notend in N; rewrite N, Ey; reflexivity|]. rewrite Ey. f_equal. apply IH. lia.
Qed.

(** ** The entries pointed to *)
Lemma slots_from_visible t : forall q t0, (forall k, nth_error t0 (q + k) = nth_error t k) ->
  Forall2 (fun p o => nth_error t0 p = Some o) (slots_from q t) (visible t) /\ StronglySorted lt (slots_from q t) /\
  Forall (fun p => q <= p < q + fe t)%nat (slots_from q t) /\ Forall notend (visible t).
Proof.
  induction t as [|o t IH]; intros q t0 H; cbn [slots_from visible]; [repeat split; constructor|].
  assert (H0 : nth_error t0 q = Some o) by (specialize (H 0%nat); rewrite Nat.add_0_r in H; exact H).
  destruct (ends_before (op o)) eqn:E1; [repeat split; constructor|].
  assert (Ne : notend o) by (unfold notend; unfold ends_before in E1; destruct (op o =? oEND); [rewrite !orb_true_r in E1; discriminate E1|reflexivity]).
  assert (Fe : fe (o :: t) = S (fe t)) by (cbn [fe]; unfold notend in Ne; rewrite Ne; reflexivity).
  destruct (ends_after (op o)); [repeat split; repeat constructor; try assumption; rewrite Fe; lia|].
  assert (H1 : forall k, nth_error t0 (S q + k) = nth_error t k) by (intros k; specialize (H (S k)); rewrite Nat.add_succ_r in H; exact H).
  destruct (IH (S q) t0 H1) as (A & B & C & D).
  assert (C' : Forall (fun p => S q <= p < q + fe (o :: t))%nat (slots_from (S q) t)).
  { eapply Forall_impl; [|exact C]. intros p Hp. rewrite Fe. cbv beta in Hp. lia. }
  destruct (skipped (op o)).
  - repeat split; try assumption. eapply Forall_impl; [|exact C']. intros p Hp. cbv beta in *. lia.
  - repeat split.
    + constructor; assumption.
    + constructor; [exact B|]. eapply Forall_impl; [|exact C']. intros p Hp. cbv beta in *. lia.
    + constructor; [rewrite Fe; lia|]. eapply Forall_impl; [|exact C']. intros p Hp. cbv beta in *. lia.
    + constructor; assumption.
Qed.
Lemma slots_visible t : Forall2 (fun p o => nth_error t p = Some o) (slots t) (visible t) /\ StronglySorted lt (slots t) /\
  Forall (fun p => p < fe t)%nat (slots t) /\ Forall notend (visible t).
Proof.
  destruct (slots_from_visible t 0 t (fun k => eq_refl)) as (A & B & C & D). repeat split; try assumption.
  eapply Forall_impl; [|exact C]. intros p Hp. cbv beta in Hp. lia.
Qed.
Lemma fe_length t : (fe t <= length t)%nat.
Proof. induction t as [|o t IH]; cbn [fe length]; [lia|]. destruct (op o =? oEND); lia. Qed.

Definition dist (n : nat) (ps : list nat) : list nat := map (fun p => (n - 1 - p)%nat) ps.
Lemma put_slots_M ps : forall t os put, Forall2 (fun p o => nth_error t p = Some o) ps os -> StronglySorted lt ps -> (length put <= length ps)%nat ->
  (M (put_slots t ps put) + Wl (dist (length t) ps) (firstn (length put) os) = M t + Wl (dist (length t) ps) put)%nat.
Proof.
  induction ps as [|p ps IH]; intros t os put A B L.
  - destruct put; [|cbn in L; lia]. cbn. lia.
  - destruct put as [|o put]; [cbn; lia|]. inversion A as [|? x ? os' Hx A' E1 E2]; subst. inversion_clear B as [|? ? B' F].
    cbn [length] in *. cbn [put_slots firstn dist map Wl]. pose proof (put_slot_M t p o x Hx) as P.
    assert (A2 : Forall2 (fun q y => nth_error (put_slot t p o) q = Some y) ps os').
    { clear -A' F. induction A'; [constructor|]. inversion_clear F. constructor; [rewrite put_slot_nth; [assumption|lia]|auto]. }
    assert (L2 : (length put <= length ps)%nat) by lia.
    specialize (IH (put_slot t p o) os' put A2 B' L2). rewrite put_slot_length in IH. unfold dist in IH. lia.
Qed.
Lemma put_slots_fe ps : forall t put, Forall (fun p => p < fe t)%nat ps -> Forall notend put -> fe (put_slots t ps put) = fe t.
Proof.
  induction ps as [|p ps IH]; intros t [|o put] A N; try reflexivity. cbn [put_slots]. inversion_clear A as [|? ? A1 A2]. inversion_clear N as [|? ? N1 N2].
  pose proof (put_slot_fe t p o A1 N1) as E. rewrite IH; [exact E| |exact N2]. rewrite E. exact A2.
Qed.
Lemma W_optimize d o : W d (optimize_push o) = W d o.
Proof.
  unfold optimize_push. destruct (op o =? oPUSH) eqn:E; [|reflexivity]. apply Z.eqb_eq in E.
  destruct (_ && _); [unfold W; rewrite E; reflexivity|]. destruct (_ <=? _); [unfold W; rewrite E; reflexivity|reflexivity].
Qed.
Lemma W_expand d o : W d (expand_push o) = W d o.
Proof.
  unfold expand_push. destruct (op o =? oPUSHB) eqn:E; [apply Z.eqb_eq in E; unfold W; rewrite E; reflexivity|].
  destruct (op o =? oUPUSHB) eqn:E2; [apply Z.eqb_eq in E2; unfold W; rewrite E2; reflexivity|reflexivity].
Qed.
Lemma notend_optimize o : notend o -> notend (optimize_push o).
Proof. unfold notend, optimize_push. intros N. repeat match goal with |- context [if ?c then _ else _] => destruct c end; solve [reflexivity|exact N]. Qed.
Lemma notend_expand o : notend o -> notend (expand_push o).
Proof. unfold notend, expand_push. intros N. repeat match goal with |- context [if ?c then _ else _] => destruct c end; solve [reflexivity|exact N]. Qed.
Lemma fe_notend t p o : (p < fe t)%nat -> nth_error t p = Some o -> notend o.
Proof.
  revert p. induction t as [|y t IH]; intros [|p] L E; try discriminate; cbn [fe nth_error] in *.
  - injection E as ->. unfold notend. destruct (op o =? oEND); [lia|reflexivity].
  - destruct (op y =? oEND); [lia|]. eapply IH; [|exact E]. lia.
Qed.
Lemma opt_at_M t k : M (opt_at t k) = M t /\ fe (opt_at t k) = fe t.
Proof.
  unfold opt_at. destruct (nth_error (slots t) k) as [p|] eqn:E; [|auto]. destruct (nth_error t p) as [o|] eqn:E2; [|auto].
  assert (L : (p < fe t)%nat).
  { destruct (slots_visible t) as (_ & _ & F & _). rewrite Forall_forall in F. apply F. eapply nth_error_In. exact E. }
  split.
  - pose proof (put_slot_M t p (optimize_push o) o E2) as P. rewrite W_optimize in P. lia.
  - apply put_slot_fe; [exact L|]. apply notend_optimize. eapply fe_notend; eassumption.
Qed.
Lemma opts_M os : forall t, M (fold_left opt_at os t) = M t /\ fe (fold_left opt_at os t) = fe t.
Proof. induction os as [|k os IH]; intros t; [auto|]. cbn [fold_left]. destruct (IH (opt_at t k)) as (-> & ->). apply opt_at_M. Qed.

Definition down (old new : nat) (i nx ch : nat) : Prop := (new = old /\ nx = S i /\ ch = 0%nat) \/ (new < old)%nat.
Definition body_down (body : list opType -> nat -> option rout) : Prop :=
  forall v i a p os nx ch ds, Forall tame v -> Forall notend v -> length ds = length v -> StronglySorted gt ds -> Forall (fun d => d < 16)%nat ds ->
    body v i = Some (Rw a p os nx ch) ->
    Forall notend p /\ (length p <= length (skipn a v))%nat /\ (i < length v)%nat /\
    down (Wl (skipn a ds) (firstn (length p) (skipn a v))) (Wl (skipn a ds) p) i nx ch.
Definition step_down (step : list opType -> nat -> tout) : Prop :=
  forall t i t' nx ch, length t = 16%nat -> Forall tame t -> step t i = Next t' nx ch ->
    (i < 16)%nat /\ fe t' = fe t /\ down (M t) (M t') i nx ch.

Lemma Forall2_skipn {A B} (R : A -> B -> Prop) n : forall l m, Forall2 R l m -> Forall2 R (skipn n l) (skipn n m).
Proof. induction n as [|n IH]; intros l m H; [exact H|]. destruct H; [constructor|]. cbn [skipn]. apply IH. assumption. Qed.
Lemma Sorted_skipn {A} (R : A -> A -> Prop) n : forall l, StronglySorted R l -> StronglySorted R (skipn n l).
Proof. induction n as [|n IH]; intros l H; [exact H|]. destruct H; [constructor|]. cbn [skipn]. apply IH. assumption. Qed.
Lemma Forall_skipn' {A} (P : A -> Prop) n : forall l, Forall P l -> Forall P (skipn n l).
Proof. induction n as [|n IH]; intros l H; [exact H|]. destruct H; [constructor|]. cbn [skipn]. apply IH. assumption. Qed.
Lemma dist_skipn n k l : dist n (skipn k l) = skipn k (dist n l).
Proof. unfold dist. revert l. induction k as [|k IH]; intros [|x l]; try reflexivity. cbn [skipn map]. apply IH. Qed.
Lemma dist_sorted n l : Forall (fun p => p < n)%nat l -> StronglySorted lt l -> StronglySorted gt (dist n l).
Proof.
  intros F H. induction H as [|x l H IH G]; [constructor|]. inversion_clear F as [|? ? Fx Fl]. cbn [dist map]. constructor; [apply IH, Fl|].
  apply Forall_forall. intros y I. apply in_map_iff in I. destruct I as (q & <- & I). rewrite Forall_forall in G, Fl. specialize (G q I). specialize (Fl q I). cbv beta in *. lia.
Qed.
Lemma table_down body : body_down body -> step_down (table_step body).
Proof.
  intros B t i t' nx ch L T. unfold table_step. destruct (body _ _) as [[|a p os x c]|] eqn:E; try discriminate. intros [= <- <- <-].
  destruct (slots_visible t) as (A1 & A2 & A3 & A4). pose proof (fe_length t) as Lf.
  assert (Ll : length (slots t) = length (visible t)) by (clear -A1; induction A1; cbn [length]; congruence).
  assert (F16 : Forall (fun q => q < 16)%nat (slots t)) by (eapply Forall_impl; [|exact A3]; intros q Hq; cbv beta in Hq; lia).
  assert (Lv : (length (visible t) <= 16)%nat).
  { clear -L. rewrite <- L. clear L. induction t as [|o t IH]; cbn [visible length]; [lia|].
    destruct (ends_before _); cbn [length]; [lia|]. destruct (ends_after _); cbn [length]; [lia|]. destruct (skipped _); cbn [length]; lia. }
  destruct (B (visible t) i a p os x c (dist 16 (slots t)) (visible_tame _ T) A4) as (N & Lp & Li & D).
  - unfold dist. rewrite map_length. exact Ll.
  - apply dist_sorted; assumption.
  - apply Forall_forall. intros d I. apply in_map_iff in I. destruct I as (q & <- & I). lia.
  - exact E.
  - split; [lia|]. unfold rewrite_at. destruct (opts_M os (put_slots t (skipn a (slots t)) p)) as (-> & ->).
    split; [apply put_slots_fe; [apply Forall_skipn', A3|exact N]|].
    pose proof (put_slots_M (skipn a (slots t)) t (skipn a (visible t)) p (Forall2_skipn _ _ _ _ A1) (Sorted_skipn _ _ _ A2)) as P.
    rewrite L, dist_skipn in P. assert (Lq : (length p <= length (skipn a (slots t)))%nat) by (rewrite skipn_length in *; lia). specialize (P Lq).
    unfold down in *. destruct D as [(D1 & D2 & D3)|D]; [left|right]; lia.
Qed.
