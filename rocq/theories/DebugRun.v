(** The debugger: execution and trace. *)

From Coq Require Import ZArith Bool List Lia ZifyBool.
From Verif Require Import Words DebugModel DebugSpec DebugMain.
Import ListNotations.
Open Scope Z_scope.

(** ** The trace *)

Lemma print_ext {E} (a b : nat -> E) m : forall i, (forall j, a j = b j) -> print_trace E m i a = print_trace E m i b.
Proof. induction m as [|m IH]; intros i H; cbn [print_trace]; [reflexivity|]. rewrite H, (IH _ H). reflexivity. Qed.

Lemma ring_full {E} (a : nat -> E) e i : (i < 16)%nat ->
  print_trace E 16 (if (16 <=? i + 1)%nat then 0%nat else (i + 1)%nat) (upd a i e) = tl (print_trace E 16 i a) ++ [e].
Proof. intros H. do 16 (destruct i as [|i]; [reflexivity|]). lia. Qed.
Lemma ring_free {E} (a : nat -> E) e i m : (i < 16)%nat -> (m < 16)%nat ->
  let f := (fun i m => if (16 <=? i + 16 - m)%nat then (i + 16 - m - 16)%nat else (i + 16 - m)%nat) in
  print_trace E (m + 1) (f (if (16 <=? i + 1)%nat then 0%nat else (i + 1)%nat) (m + 1)%nat) (upd a i e) = print_trace E m (f i m) a ++ [e].
Proof. intros H M. do 16 (destruct i as [|i]; [do 16 (destruct m as [|m]; [reflexivity|]); lia|]). lia. Qed.

Lemma print_length {E} (a : nat -> E) m : forall i, length (print_trace E m i a) = m.
Proof. induction m as [|m IH]; intros i; cbn [print_trace length]; [reflexivity|]. rewrite IH. reflexivity. Qed.

Section Run.
  Variables S E : Type.
  Variable pc : S -> Z.
  Variable exec : S -> bool * S.
  Variable snap : S -> E.
  Variable maxpc : Z.

  Notation debug := (debug S E pc exec snap maxpc).
  Notation record := (record S E snap).
  Notation check := (check S E pc maxpc).
  Notation steps := (steps S exec).
  Notation reason := (reason S pc exec maxpc).
  Notation stops_at := (stops_at S pc exec maxpc).

  Lemma record_sound s d : sound d -> sound (record s d) /\ listed E (record s d) = listed E d /\
    printed E (record s d) = last_n 16 (printed E d ++ [snap s]) /\ bExecStop E (record s d) = bExecStop E d /\ untilPoint E (record s d) = untilPoint E d.
  Proof.
    intros (N & L & T1 & T2). split; [|split; [reflexivity|split; [|split; reflexivity]]].
    - unfold sound, DebugModel.record, TRACE_ARRAY_SIZE. cbn [traceIndex nTracePoints]. split; [exact N|]. split; [exact L|].
      split; [destruct (16 <=? traceIndex E d + 1)%nat eqn:?; lia|destruct (nTracePoints E d <? 16)%nat eqn:?; lia].
    - unfold printed, DebugModel.record, last_n, TRACE_ARRAY_SIZE. cbn [traceIndex nTracePoints traceArray].
      rewrite app_length, print_length. cbn [length].
      destruct (nTracePoints E d <? 16)%nat eqn:F.
      + replace (nTracePoints E d + 1 - 16)%nat with 0%nat by lia. cbn [skipn]. apply (ring_free (traceArray E d) (snap s) (traceIndex E d) (nTracePoints E d)); lia.
      + replace (nTracePoints E d) with 16%nat by lia.
        replace (traceIndex E d + 16 - 16)%nat with (traceIndex E d) by lia.
        replace (16 <=? traceIndex E d)%nat with false by lia.
        set (i' := if (16 <=? traceIndex E d + 1)%nat then 0%nat else (traceIndex E d + 1)%nat).
        replace (i' + 16 - 16)%nat with i' by lia. replace (16 <=? i')%nat with false by (unfold i'; destruct (16 <=? traceIndex E d + 1)%nat eqn:?; lia).
        unfold i'. rewrite ring_full by exact T1. replace (16 + 1 - 16)%nat with 1%nat by lia. cbn [print_trace tl app skipn]. reflexivity.
  Qed.

  Lemma check_same ok s d : sound d -> sound (check ok s d) /\ listed E (check ok s d) = listed E d /\
    printed E (check ok s d) = printed E d /\ untilPoint E (check ok s d) = untilPoint E d.
  Proof.
    intros H. unfold DebugModel.check, check_break. destruct ok; repeat match goal with |- context [if ?b then _ else _] => destruct b end; (split; [exact H|]); repeat split.
  Qed.

  Definition wish (u : Z) : option Z := if 0 <? u then Some u else None.

  Lemma check_stop ok s d : bExecStop E (check ok s d) = true <->
    bExecStop E d = true \/ ok = false \/ maxpc <= pc s \/ wish (untilPoint E d) = Some (pc s) \/ In (pc s) (listed E d).
  Proof.
    unfold DebugModel.check, wish. destruct ok; [|cbn; tauto].
    destruct (bExecStop E d) eqn:B; [rewrite B; tauto|].
    destruct (Z.leb_spec maxpc (pc s)) as [M|M]; [cbn; tauto|].
    destruct (0 <? untilPoint E d) eqn:U; cbn [andb].
    - destruct (Z.eqb_spec (untilPoint E d) (pc s)) as [Q|Q].
      + cbn. rewrite Q. tauto.
      + destruct (0 <? nBreakPoints E d)%nat eqn:Nb.
        * unfold check_break. rewrite B. cbn [negb andb]. destruct (existsb _ _) eqn:X.
          -- apply listed_in in X. cbn. tauto.
          -- rewrite B. split; [discriminate|]. intros [H|[H|[H|[H|H]]]]; try discriminate; try lia; [congruence|]. apply listed_in in H. congruence.
        * rewrite B. split; [discriminate|]. intros [H|[H|[H|[H|H]]]]; try discriminate; try lia; [congruence|].
          exfalso. unfold listed in H. replace (nBreakPoints E d) with 0%nat in H by lia. exact H.
    - destruct (0 <? nBreakPoints E d)%nat eqn:Nb.
      + unfold check_break. rewrite B. cbn [negb andb]. destruct (existsb _ _) eqn:X.
        * apply listed_in in X. cbn. tauto.
        * rewrite B. split; [discriminate|]. intros [H|[H|[H|[H|H]]]]; try discriminate; try lia. apply listed_in in H. congruence.
      + rewrite B. split; [discriminate|]. intros [H|[H|[H|[H|H]]]]; try discriminate; try lia.
        exfalso. unfold listed in H. replace (nBreakPoints E d) with 0%nat in H by lia. exact H.
  Qed.

  (** What the trace shows behind [k] instructions *)
  Definition traced (d : dbg E) (s : S) (k : nat) : list E := last_n 16 (printed E d ++ map (fun j => snap (steps j s)) (seq 0 k)).

  Lemma skip_skip {X} (l : list X) : forall x y, skipn x (skipn y l) = skipn (x + y) l.
  Proof.
    induction l as [|e l IH]; intros x y; [rewrite !skipn_nil; reflexivity|].
    destruct y as [|y]; [rewrite Nat.add_0_r; reflexivity|]. rewrite Nat.add_succ_r. cbn [skipn]. apply IH.
  Qed.
  Lemma last_last {X} (l m : list X) : last_n 16 (last_n 16 l ++ m) = last_n 16 (l ++ m).
  Proof.
    unfold last_n. rewrite !app_length, skipn_length. rewrite !skipn_app, skipn_length.
    destruct (Nat.le_gt_cases (length l) 16) as [H|H].
    - replace (length l - 16)%nat with 0%nat by lia. cbn [skipn]. replace (length l - 0)%nat with (length l) by lia. reflexivity.
    - replace (length l - (length l - 16))%nat with 16%nat by lia.
      replace (16 + length m - 16)%nat with (length m) by lia.
      rewrite skip_skip. f_equal; f_equal; lia.
  Qed.

  (** [k]: the instruction behind which the loop ends *)
  Lemma debug_spec : forall n d s d' s', debug n d s = Some (d', s') -> sound d ->
    exists k, (k <= n)%nat /\ s' = steps k s /\
      (if bExecStop E d then k = 1%nat else stops_at (listed E d) (wish (untilPoint E d)) s k) /\
      sound d' /\ listed E d' = listed E d /\ untilPoint E d' = untilPoint E d /\ printed E d' = traced d s k.
  Proof.
    induction n as [|n IH]; intros d s d' s' H So; cbn [DebugModel.debug] in H; [discriminate|].
    destruct (record_sound s d So) as (R1 & R2 & R3 & R4 & R5).
    destruct (exec s) as (ok & s1) eqn:X.
    destruct (check_same ok s1 _ R1) as (C1 & C2 & C3 & C4). pose proof (check_stop ok s1 (record s d)) as C5.
    rewrite R4, R5, R2 in C5.
    destruct (bExecStop E (check ok s1 (record s d))) eqn:B.
    - injection H as <- <-. exists 1%nat. split; [lia|]. cbn [DebugSpec.steps]. rewrite X. split; [reflexivity|].
      split; [|split; [exact C1|split; [rewrite C2; exact R2|split; [rewrite C4; exact R5|rewrite C3; exact R3]]]].
      destruct (bExecStop E d); [reflexivity|]. split; [lia|]. split; [|intros j J; lia].
      unfold DebugSpec.reason. cbn [Nat.sub DebugSpec.steps]. rewrite X. cbn [fst snd].
      destruct (proj1 C5 eq_refl) as [Q|Q]; [discriminate|exact Q].
    - assert (Nr : ~ (bExecStop E d = true \/ ok = false \/ maxpc <= pc s1 \/ wish (untilPoint E d) = Some (pc s1) \/ In (pc s1) (listed E d))) by (rewrite <- C5; discriminate).
      destruct (IH _ _ _ _ H C1) as (k & K1 & K2 & K3 & K4 & K5 & K6 & K7). rewrite B in K3. rewrite C2, R2, C4, R5 in K3.
      exists (Datatypes.S k). split; [lia|]. cbn [DebugSpec.steps]. rewrite X. cbn [snd]. split; [exact K2|].
      split; [|split; [exact K4|split; [congruence|split; [congruence|]]]].
      + destruct (bExecStop E d); [tauto|]. destruct K3 as (P & Rk & Nk). split; [lia|]. split.
        * unfold DebugSpec.reason in *. destruct k as [|k]; [lia|]. cbn [Nat.sub DebugSpec.steps] in *. rewrite X. cbn [snd]. rewrite Nat.sub_0_r in Rk. exact Rk.
        * intros j J Rj. destruct j as [|[|j]]; [lia| |].
          -- unfold DebugSpec.reason in Rj. cbn [Nat.sub DebugSpec.steps] in Rj. rewrite X in Rj. cbn [fst snd] in Rj. tauto.
          -- apply (Nk (Datatypes.S j)); [lia|]. unfold DebugSpec.reason in *. cbn [Nat.sub DebugSpec.steps] in *. rewrite X in Rj. cbn [snd] in Rj. rewrite Nat.sub_0_r. exact Rj.
      + rewrite K7. unfold traced. rewrite C3, R3, last_last, <- app_assoc. f_equal. f_equal. cbn [seq map app DebugSpec.steps]. f_equal.
        rewrite <- seq_shift, map_map. apply map_ext. intros j. cbn [DebugSpec.steps]. rewrite X. reflexivity.
  Qed.

  (** If there is a reason to stop, the loop ends. *)
  Lemma debug_ends : forall k n d s, sound d -> (bExecStop E d = true \/ reason (listed E d) (wish (untilPoint E d)) s k) -> (1 <= k <= n)%nat ->
    debug n d s <> None.
  Proof.
    induction k as [|k IH]; intros n d s So R K; [lia|]. destruct n as [|n]; [lia|]. cbn [DebugModel.debug].
    destruct (record_sound s d So) as (R1 & R2 & R3 & R4 & R5).
    destruct (exec s) as (ok & s1) eqn:X.
    destruct (check_same ok s1 _ R1) as (C1 & C2 & C3 & C4). pose proof (check_stop ok s1 (record s d)) as C5. rewrite R4, R5, R2 in C5.
    destruct (bExecStop E (check ok s1 (record s d))) eqn:B; [discriminate|].
    assert (Nr : ~ (bExecStop E d = true \/ ok = false \/ maxpc <= pc s1 \/ wish (untilPoint E d) = Some (pc s1) \/ In (pc s1) (listed E d))) by (rewrite <- C5; discriminate).
    destruct R as [R|R]; [tauto|]. unfold DebugSpec.reason in R. cbn [DebugSpec.steps] in R. rewrite X in R. cbn [snd] in R.
    destruct k as [|k]; [cbn [Nat.sub DebugSpec.steps] in R; rewrite X in R; cbn [fst] in R; tauto|].
    apply IH; [exact C1| |lia]. right. rewrite C2, R2, C4, R5. unfold DebugSpec.reason. cbn [Nat.sub DebugSpec.steps] in *. rewrite X in R. cbn [snd] in R. rewrite Nat.sub_0_r. exact R.
  Qed.

  (** The commands *)
  Lemma go_spec : forall n d s d' s', cmd_go S E pc exec snap maxpc n d s = Some (d', s') -> sound d -> untilPoint E d = 0 ->
    exists k, s' = steps k s /\ stops_at (listed E d) None s k /\
      sound d' /\ listed E d' = listed E d /\ untilPoint E d' = 0 /\ printed E d' = traced d s k.
  Proof.
    intros n d s d' s' H So U. destruct (debug_spec _ _ _ _ _ H So) as (k & _ & K2 & K3 & K4 & K5 & K6 & K7).
    cbn [bExecStop with_stop untilPoint] in K3, K6. rewrite U in K3, K6. exists k. repeat (split; [assumption|]). exact K7.
  Qed.
  Lemma step_spec : forall n d s, (1 <= n)%nat -> sound d -> untilPoint E d = 0 ->
    exists d', cmd_step S E pc exec snap maxpc n d s = Some (d', snd (exec s)) /\
      sound d' /\ listed E d' = listed E d /\ untilPoint E d' = 0 /\ printed E d' = traced d s 1.
  Proof.
    intros n d s N So U. unfold cmd_step. destruct (debug n (with_stop E true d) s) as [(d', s')|] eqn:H.
    - destruct (debug_spec _ _ _ _ _ H So) as (k & _ & K2 & K3 & K4 & K5 & K6 & K7). cbn [bExecStop with_stop] in K3. subst k. cbn [DebugSpec.steps] in K2. subst s'.
      exists d'. split; [reflexivity|]. split; [exact K4|]. split; [exact K5|]. split; [rewrite K6; exact U|exact K7].
    - exfalso. refine (debug_ends 1 n (with_stop E true d) s So _ _ H); [left; reflexivity|lia].
  Qed.
  Lemma next_spec : forall is_call n d s d' s', cmd_next S E pc exec is_call snap maxpc n d s = Some (d', s') -> sound d -> untilPoint E d = 0 -> 0 <= pc s < 65532 ->
    (exists k, s' = steps k s /\ (if is_call s then stops_at (listed E d) (Some (pc s + 4)) s k else k = 1%nat) /\ printed E d' = traced d s k) /\
    sound d' /\ listed E d' = listed E d /\ untilPoint E d' = 0.
  Proof.
    intros is_call n d s d' s' H So U B. unfold cmd_next in H.
    destruct (debug n _ s) as [(d1, s1)|] eqn:D; [|discriminate]. injection H as <- <-.
    destruct (debug_spec _ _ _ _ _ D) as (k & _ & K2 & K3 & K4 & K5 & K6 & K7); [destruct (is_call s); exact So|].
    split; [|split; [exact K4|split; [|reflexivity]]].
    - exists k. split; [exact K2|]. destruct (is_call s); cbn [bExecStop with_stop with_until untilPoint] in *.
      + split; [|exact K7]. unfold wish, u16 in K3. rewrite Z.mod_small in K3 by lia. replace (0 <? pc s + 4) with true in K3 by lia. exact K3.
      + split; [exact K3|exact K7].
    - destruct (is_call s); exact K5.
  Qed.
  Lemma run_spec : forall (reset : S -> S) n d s d' s', cmd_run S E pc exec reset snap maxpc n d s = Some (d', s') -> sound d -> untilPoint E d = 0 ->
    exists k, s' = steps k (reset s) /\ stops_at (listed E d) None (reset s) k /\
      sound d' /\ listed E d' = listed E d /\ untilPoint E d' = 0 /\ printed E d' = last_n 16 (map (fun j => snap (steps j (reset s))) (seq 0 k)).
  Proof.
    intros reset n d s d' s' H So U.
    assert (So' : sound (init_debugger E d)) by (destruct So as (A & B & _); split; [exact A|split; [exact B|split; cbn; lia]]).
    destruct (debug_spec _ _ _ _ _ H So') as (k & _ & K2 & K3 & K4 & K5 & K6 & K7).
    cbn [bExecStop init_debugger untilPoint] in K3, K6. rewrite U in K3, K6. exists k. repeat (split; [assumption|]). exact K7.
  Qed.
  Lemma go_ends : forall n d s k, sound d -> untilPoint E d = 0 -> stops_at (listed E d) None s k -> (k <= n)%nat ->
    cmd_go S E pc exec snap maxpc n d s <> None.
  Proof.
    intros n d s k So U (K1 & K2 & _) K. apply (debug_ends k); [exact So| |lia]. right. cbn [untilPoint with_stop]. rewrite U. exact K2.
  Qed.
End Run.
