(** The whole of popt_LocalOptimization *)

From Coq Require Import ZArith Bool List Lia ZifyBool Relations.Relation_Operators.
From Verif Require Import Words State Opcodes Machine VmSpec EncodeSpec OptSpec OptPassSpec OptExcept OptTable PoptModel PoptLongModel
  OptUnaryStep OptBinary OptBranch OptMemStep OptLong OptLongBin StrOptSpec StrOptProofs OptRunSpec.
Import ListNotations.
Open Scope Z_scope.

(** ** The length of the table *)

Lemma put_slot_length t p o : length (put_slot t p o) = length t.
Proof.
  unfold put_slot. destruct (nth_error t p) as [x|] eqn:E; [|reflexivity].
  assert (L : (p < length t)%nat) by (apply nth_error_Some; congruence).
  rewrite app_length, firstn_length. cbn [length]. rewrite skipn_length. lia.
Qed.
Lemma put_slots_length ps : forall t put, length (put_slots t ps put) = length t.
Proof. induction ps as [|p ps IH]; intros t [|o put]; try reflexivity. cbn [put_slots]. rewrite IH. apply put_slot_length. Qed.
Lemma opt_at_length t k : length (opt_at t k) = length t.
Proof. unfold opt_at. destruct (nth_error (slots t) k); [|reflexivity]. destruct (nth_error t _); [apply put_slot_length|reflexivity]. Qed.
Lemma opts_length os : forall t, length (fold_left opt_at os t) = length t.
Proof. induction os as [|k os IH]; intros t; [reflexivity|]. cbn [fold_left]. rewrite IH. apply opt_at_length. Qed.
Lemma rewrite_length t a p os : length (rewrite_at t a p os) = length t.
Proof. unfold rewrite_at. rewrite opts_length. apply put_slots_length. Qed.

Definition keeps_length (step : list opType -> nat -> tout) : Prop :=
  forall t i t' nx ch, step t i = Next t' nx ch -> length t' = length t.
Lemma table_length body : keeps_length (table_step body).
Proof.
  intros t i t' nx ch. unfold table_step. destruct (body _ _) as [[|a p os x c]|]; try discriminate. intros [= <- _ _]. apply rewrite_length.
Qed.
Lemma run_rout_length t r k t' nx ch : (forall t1 a b, length t1 = length t -> k t1 a b = Next t' nx ch -> length t' = length t) ->
  run_rout t r k = Next t' nx ch -> length t' = length t.
Proof. intros K. destruct r as [|a p os x c]; [discriminate|]. cbn [run_rout]. apply K. apply rewrite_length. Qed.
Lemma long_unary_length : keeps_length long_unary_step.
Proof.
  intros t i t' nx ch. unfold long_unary_step. destruct (_ <=? _)%nat; [discriminate|].
  destruct (long_unary_rule _ _) as [[r|r]|].
  - apply run_rout_length. intros t1 a b L [= <- _ _]. exact L.
  - apply run_rout_length. intros t1 a b L. cbv zeta. set (t2 := fold_left _ _ t1). assert (L2 : length t2 = length t) by (unfold t2; rewrite opts_length; exact L).
    destruct (nth_error _ _) as [o|]; [|intros [= <- _ _]; exact L2]. destruct (op o =? _); [|intros [= <- _ _]; exact L2].
    rewrite <- L2. apply run_rout_length. intros t3 a' b' L3 [= <- _ _]. exact L3.
  - apply run_rout_length. intros t1 a b L [= <- _ _]. exact L.
Qed.
Lemma long_binary_length : keeps_length long_binary_step.
Proof.
  intros t i t' nx ch. unfold long_binary_step. destruct (_ <=? _)%nat; [discriminate|].
  destruct (long_binary_rule _ _) as [[r|r]|].
  - apply run_rout_length. intros t1 a b L [= <- _ _]. exact L.
  - apply run_rout_length. intros t1 a b L. rewrite <- L. apply run_rout_length. intros t3 a' b' L3 [= <- _ _]. exact L3.
  - intros [= <- _ _]. reflexivity.
Qed.

(** ** The passes *)

Definition sound_step (step : list opType -> nat -> tout) : Prop :=
  pass_sound step harmless /\ keeps_length step.
Lemma eight_sound : Forall (fun p => sound_step (fst p)) eight.
Proof.
  unfold eight. repeat apply Forall_cons; try apply Forall_nil; cbn [fst]; (split; [|first [apply table_length|apply long_unary_length|apply long_binary_length]]);
    intros t i W (H2 & H3 & Hf & H5 & H4).
  - apply unary_table; [exact W|]. intros a b A. apply (H2 a b A).
  - apply long_unary_table; [exact W| |exact Hf]. intros a b o A. apply (H3 a b o A).
  - apply binary_table; [exact W|]. intros a b o A. apply (H3 a b o A).
  - apply long_binary_table; [exact W|exact H5|exact H4].
  - apply branch_table; [exact W|]. intros a b A. apply (H2 a b A).
  - apply stack_table; [exact W|]. intros a b o A. apply (H3 a b o A).
  - apply load_table; [exact W| |]; [intros a b A; apply (H2 a b A)|intros a b o A; apply (H3 a b o A)].
  - apply store_table; [exact W| |]; [intros a b A; apply (H2 a b A)|intros a b o A; apply (H3 a b o A)].
Qed.

(** [r] is not undefined, and what it results in does what [t] did *)
Definition fine_lout (t : list opType) (r : lout) : Prop :=
  r <> Breaks /\ forall t' c, r = Result t' c -> preserved t t' /\ Forall wf_op t' /\ length t' = length t.
Notation safe := (Forall (fun t => harmless (visible t))).

Lemma pass_fine step : sound_step step -> forall n t i c, Forall wf_op t -> safe (met_pass n step t i) -> fine_lout t (pass n step t i c).
Proof.
  intros (S1 & S2). induction n as [|n IH]; intros t i c W M; [split; discriminate|]. cbn [pass met_pass] in *.
  inversion_clear M as [|? ? G M']. destruct (S1 t i W G) as (B & N). destruct (step t i) as [| |t1 nx ch] eqn:E.
  - split; [discriminate|]. intros t' c' [= <- _]. split; [apply preserved_refl|auto].
  - congruence.
  - destruct (N _ _ _ eq_refl) as (P & W1). destruct (IH t1 nx (c + ch)%nat W1 M') as (B' & N'). split; [exact B'|].
    intros t' c' H. destruct (N' _ _ H) as (P' & W' & L'). split; [eapply preserved_trans; eassumption|]. split; [exact W'|].
    rewrite L'. exact (S2 _ _ _ _ _ E).
Qed.
Lemma pass_count step n : forall t i c, pass n step t i c = match pass n step t i 0 with Result t' c' => Result t' (c + c')%nat | r => r end.
Proof.
  induction n as [|n IH]; intros t i c; [reflexivity|]. cbn [pass]. destruct (step t i) as [| |t1 nx ch]; [f_equal; lia|reflexivity|].
  rewrite (IH t1 nx (c + ch)%nat), (IH t1 nx (0 + ch)%nat). destruct (pass n step t1 nx 0); try reflexivity. f_equal. lia.
Qed.

Fixpoint run_passes (n : nat) (ps : list ((list opType -> nat -> tout) * nat)) (t : list opType) (c : nat) : lout :=
  match ps with
  | [] => Result t c
  | (step, i) :: ps' => andthen (pass n step t i c) (run_passes n ps')
  end.
Lemma sweep_passes n t : sweep n t = run_passes n eight t 0.
Proof.
  unfold sweep, eight. cbn [run_passes].
  repeat (match goal with |- andthen ?p _ = andthen ?p _ => destruct p as [| |? ?]; cbn [andthen]; [reflexivity|reflexivity|] end).
  match goal with |- ?p = andthen ?p _ => destruct p; reflexivity end.
Qed.
Lemma passes_fine n ps : Forall (fun p => sound_step (fst p)) ps -> forall t c, Forall wf_op t -> safe (met_passes n ps t) ->
  fine_lout t (run_passes n ps t c).
Proof.
  induction 1 as [|(step, i) ps S _ IH]; intros t c W M; cbn [run_passes met_passes] in *.
  - split; [discriminate|]. intros t' c' [= <- _]. split; [apply preserved_refl|auto].
  - apply Forall_app in M. destruct M as (M1 & M2). destruct (pass_fine step S n t i c W M1) as (B & N).
    rewrite pass_count in *. destruct (pass n step t i 0) as [| |t1 c1]; [split; discriminate|congruence|]. cbn [andthen].
    destruct (N _ _ eq_refl) as (P & W1 & L). destruct (IH t1 (c + c1)%nat W1 M2) as (B' & N'). split; [exact B'|].
    intros t' c' H. destruct (N' _ _ H) as (P' & W' & L'). split; [eapply preserved_trans; eassumption|]. split; [exact W'|lia].
Qed.
Lemma sweeps_fine n m : forall t, Forall wf_op t -> safe (met_sweeps m n t) -> fine_lout t (sweeps m n t).
Proof.
  induction m as [|m IH]; intros t W M; [split; discriminate|]. cbn [sweeps met_sweeps] in *.
  apply Forall_app in M. destruct M as (M1 & M2). destruct (passes_fine n eight eight_sound t 0 W M1) as (B & N).
  rewrite <- sweep_passes in B, N. destruct (sweep n t) as [| |t1 c1]; [split; discriminate|congruence|].
  destruct (N _ _ eq_refl) as (P & W1 & L). destruct (c1 =? 0)%nat.
  - split; [discriminate|]. intros t' c' [= <- _]. auto.
  - destruct (IH t1 W1 M2) as (B' & N'). split; [exact B'|].
    intros t' c' H. destruct (N' _ _ H) as (P' & W' & L'). split; [eapply preserved_trans; eassumption|]. split; [exact W'|lia].
Qed.

(** ** The code up to the end of the program *)

Lemma code_upto l : code (upto_end l) = upto_end (code l).
Proof.
  induction l as [|o l IH]; [reflexivity|]. cbn [upto_end]. destruct (op o =? oEND) eqn:E.
  - rewrite !code_cons. assert (L : live o = true) by (unfold live; apply Z.eqb_eq in E; rewrite E; reflexivity). rewrite L. cbn [upto_end]. rewrite E. reflexivity.
  - rewrite !code_cons. destruct (live o); [cbn [upto_end]; rewrite E, IH; reflexivity|exact IH].
Qed.
Lemma code_app a b : code (a ++ b) = code a ++ code b.
Proof. apply filter_app. Qed.
Lemma upto_unmarked x l : unmarked x -> upto_end (x ++ l) = x ++ upto_end l.
Proof.
  induction x as [|o x IH]; intros M; [reflexivity|]. cbn [app upto_end].
  assert (N : (op o =? oEND) = false).
  { apply Z.eqb_neq. intros E. apply (M o (or_introl eq_refl)). rewrite E. cbn. tauto. }
  rewrite N, IH; [reflexivity|]. intros q Hq. apply M. right. exact Hq.
Qed.
Lemma upto_window c c' : window_refines c c' -> wclos (upto_end c) (upto_end c').
Proof.
  intros (pre & x & y & post & -> & -> & M & R).
  assert (Mx : unmarked x) by (intros q Hq; apply M, in_or_app; auto). assert (My : unmarked y) by (intros q Hq; apply M, in_or_app; auto).
  induction pre as [|o pre IH]; cbn [app upto_end].
  - rewrite !upto_unmarked by assumption. apply wclos_snoc. apply wclos_refines; assumption.
  - destruct (op o =? oEND); [apply wclos_refl|apply wclos_cons, IH].
Qed.
Lemma upto_wclos c c' : wclos c c' -> wclos (upto_end c) (upto_end c').
Proof. induction 1 as [c c' H| |]; [apply upto_window, H|apply wclos_refl|eapply wclos_trans; eassumption]. Qed.
Lemma upto_preserved t t' l : preserved t t' -> wclos (code (upto_end (t ++ l))) (code (upto_end (t' ++ l))).
Proof. intros P. rewrite !code_upto, !code_app. apply upto_wclos, wclos_snoc, P. Qed.
Lemma code_nops r : code (filter not_nop r) = code r.
Proof.
  induction r as [|o r IH]; [reflexivity|]. cbn [filter]. destruct (not_nop o) eqn:N; rewrite !code_cons, ?IH; [reflexivity|].
  assert (L : live o = false) by (unfold not_nop in N; unfold live; destruct (op o =? oNOP); [reflexivity|discriminate]). rewrite L. reflexivity.
Qed.
Lemma wf_end : wf_op op_end.
Proof. unfold wf_op, op_end. cbn [op arg1 arg2]. repeat split; try discriminate; try reflexivity; lia. Qed.
Lemma fill_wf n : forall t l, Forall wf_op t -> Forall wf_op l -> let '(t', l') := fill n t l in Forall wf_op t' /\ Forall wf_op l'.
Proof.
  induction n as [|n IH]; intros t l Wt Wl; cbn [fill]; [auto|]. destruct (input_op l) as (o, r) eqn:E.
  assert (W : wf_op o /\ Forall wf_op r).
  { destruct l as [|x l]; cbn [input_op] in E; injection E as <- <-; [split; [|constructor]|inversion Wl; auto].
    exact wf_end. }
  apply IH; [apply Forall_app; split; [exact Wt|constructor; [apply W|constructor]]|apply W].
Qed.
Lemma filter_wf (f : opType -> bool) r : Forall wf_op r -> Forall wf_op (filter f r).
Proof. intros H. rewrite Forall_forall in *. intros o Ho. apply filter_In in Ho. apply H, Ho. Qed.

Lemma loop_fine m n k : forall t l out, length t = WINDOW -> Forall wf_op t -> Forall wf_op l -> safe (met_loop k m n t l) ->
  optimize_loop k m n t l out <> OBreaks /\
  forall o, optimize_loop k m n t l out = OResult o ->
    exists res, o = out ++ res /\ wclos (code (upto_end (t ++ l))) (code res) /\ Forall wf_op res.
Proof.
  induction k as [|k IH]; intros t l out Lt Wt Wl M; [split; discriminate|]. cbn [optimize_loop met_loop] in *.
  apply Forall_app in M. destruct M as (M1 & M2). destruct (sweeps_fine n m t Wt M1) as (B & N).
  destruct (sweeps m n t) as [| |t1 c1]; [split; discriminate|congruence|]. destruct (N _ _ eq_refl) as (P & W1 & L1).
  destruct t1 as [|o r]; [rewrite Lt in L1; discriminate|]. pose proof (upto_preserved _ _ l P) as U.
  inversion_clear W1 as [|? ? Wo Wr]. cbn [app upto_end] in U. cbv zeta. destruct (op o =? oEND) eqn:E.
  - split; [discriminate|]. intros res [= <-]. exists [o]. unfold not_nop. replace (op o =? oNOP) with false by (unfold oNOP, oEND in *; lia). cbn [negb].
    split; [reflexivity|]. split; [exact U|constructor; [exact Wo|constructor]].
  - unfold refill in *. pose proof (upto_fill (WINDOW - length (filter not_nop r)) (filter not_nop r) l) as F.
    pose proof (fill_wf (WINDOW - length (filter not_nop r)) (filter not_nop r) l (filter_wf _ r Wr) Wl) as FW.
    destruct (fill _ _ _) as (t2, l2). destruct F as (F1 & F2). destruct FW as (W2 & W2').
    assert (Lf : (length (filter not_nop r) <= WINDOW)%nat).
    { assert (X : (length (filter not_nop r) <= length r)%nat) by (clear; induction r as [|x r IH]; [cbn; lia|]; cbn [filter length]; destruct (not_nop x); cbn [length]; lia).
      cbn [length] in L1. lia. }
    destruct (IH t2 l2 (if not_nop o then out ++ [o] else out) ltac:(lia) W2 W2' M2) as (B' & N'). split; [exact B'|].
    intros q H. destruct (N' _ H) as (res & -> & C & Wres). rewrite F1 in C.
    rewrite code_upto, code_app, code_nops, <- code_app, <- code_upto in C.
    rewrite code_cons in U. unfold not_nop. destruct (op o =? oNOP) eqn:Np; cbn [negb].
    + exists res. split; [reflexivity|]. split; [|exact Wres]. assert (Lo : live o = false) by (unfold live; rewrite Np; reflexivity). rewrite Lo in U.
      eapply wclos_trans; eassumption.
    + exists (o :: res). rewrite <- app_assoc. split; [reflexivity|]. split; [|constructor; assumption]. rewrite code_cons.
      eapply wclos_trans; [exact U|]. destruct (live o); [apply wclos_cons, C|exact C].
Qed.

Lemma leading_wf l : Forall wf_op l -> let '(pre, r) := leading l in Forall wf_op pre /\ Forall wf_op r.
Proof.
  induction 1 as [|o l W H IH]; cbn [leading].
  - split; [|constructor]. constructor; [|constructor]. exact wf_end.
  - destruct (_ || _); [split; [constructor; [exact W|constructor]|exact H]|]. destruct (leading l) as (a, b). destruct IH. split; [constructor; assumption|assumption].
Qed.

Lemma optimize_fine : forall l k m n, has_label l -> Forall wf_op l -> safe (met k m n l) ->
  optimize k m n l <> OBreaks /\
  forall out, optimize k m n l = OResult out -> preserved (upto_end l) out /\ Forall wf_op out.
Proof.
  intros l k m n H W M. unfold optimize, met in *. pose proof (leading_label l H) as Ld. pose proof (leading_wf l W) as Lw.
  destruct (leading l) as (pre, r). destruct Ld as (E & _). destruct Lw as (Wp & Wr).
  unfold refill in *. pose proof (upto_fill (WINDOW - length (@nil opType)) [] r) as F.
  pose proof (fill_wf (WINDOW - length (@nil opType)) [] r (Forall_nil _) Wr) as FW.
  destruct (fill _ _ _) as (t, r'). destruct F as (F1 & F2). destruct FW as (Wt & Wr'). cbn [app] in F1.
  destruct (loop_fine m n k t r' [] ltac:(rewrite F2; reflexivity) Wt Wr' M) as (B & N).
  destruct (optimize_loop k m n t r' []) as [| |o]; [split; discriminate|congruence|]. split; [discriminate|].
  intros out [= <-]. destruct (N _ eq_refl) as (res & -> & C & Wres). cbn [app]. split; [|apply Forall_app; auto].
  unfold preserved. rewrite E, !code_app, <- F1. pose proof (wclos_ctx _ _ (code pre) [] C) as X. rewrite !app_nil_r in X. exact X.
Qed.

(** ** What has to stay *)

Lemma marks_unmarked x : unmarked x -> filter is_mark x = [].
Proof.
  induction x as [|o x IH]; intros M; [reflexivity|]. cbn [filter].
  destruct (is_mark o) eqn:E; [|apply IH; intros q Hq; apply M; right; exact Hq].
  exfalso. apply (M o (or_introl eq_refl)). unfold is_mark in E. apply existsb_exists in E. destruct E as (z & Hz & Ez). apply Z.eqb_eq in Ez. rewrite Ez. exact Hz.
Qed.
Lemma wclos_marks c c' : wclos c c' -> filter is_mark c = filter is_mark c'.
Proof.
  induction 1 as [c c' (pre & x & y & post & -> & -> & M & _)| |]; [|reflexivity|congruence].
  assert (Mx : unmarked x) by (intros q Hq; apply M, in_or_app; auto). assert (My : unmarked y) by (intros q Hq; apply M, in_or_app; auto).
  rewrite !filter_app, (marks_unmarked x Mx), (marks_unmarked y My). reflexivity.
Qed.
Lemma optimize_marks : forall l k m n out, has_label l -> Forall wf_op l -> safe (met k m n l) ->
  optimize k m n l = OResult out -> marked_ops out = marked_ops (upto_end l).
Proof.
  intros l k m n out H W M E. destruct (optimize_fine l k m n H W M) as (_ & N). destruct (N _ E) as (P & _).
  symmetry. exact (wclos_marks _ _ P).
Qed.
