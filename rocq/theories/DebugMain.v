(** The debugger. *)

From Coq Require Import ZArith Bool List Lia ZifyBool.
From Verif Require Import Words DebugModel DebugSpec.
Import ListNotations.
Open Scope Z_scope.

(** ** Breakpoints *)

Lemma map_upd_old {X} (a : nat -> X) i v n : (n <= i)%nat -> map (upd a i v) (seq 0 n) = map a (seq 0 n).
Proof. intros H. apply map_ext_in. intros j J. apply in_seq in J. unfold upd. replace (j =? i)%nat with false by lia. reflexivity. Qed.

Lemma listed_in E (d : dbg E) a : existsb (fun i => breakPoint E d i =? a) (seq 0 (nBreakPoints E d)) = true <-> In a (listed E d).
Proof.
  unfold listed. rewrite existsb_exists, in_map_iff. split.
  - intros (i & I & Q). apply Z.eqb_eq in Q. exists i. split; assumption.
  - intros (i & Q & I). exists i. split; [exact I|]. apply Z.eqb_eq. exact Q.
Qed.

Lemma listed_length E (d : dbg E) : length (listed E d) = nBreakPoints E d.
Proof. unfold listed. rewrite map_length, seq_length. reflexivity. Qed.

Lemma bs_listed E maxpc a (d : dbg E) : sound d ->
  sound (cmd_bs E maxpc a d) /\
  listed E (cmd_bs E maxpc a d) =
    if (length (listed E d) <? 8)%nat && (a <? maxpc) && negb (if in_dec Z.eq_dec a (listed E d) then true else false)
    then listed E d ++ [a] else listed E d.
Proof.
  intros (N & L & T1 & T2). pose proof (listed_length E d) as Le. unfold cmd_bs, add_break, MAX_BREAK_POINTS.
  destruct (8 <=? nBreakPoints E d)%nat eqn:F.
  { replace (length (listed E d) <? 8)%nat with false by lia. split; [repeat split; assumption|reflexivity]. }
  replace (length (listed E d) <? 8)%nat with true by lia. cbn [andb].
  destruct (maxpc <=? a) eqn:M.
  { replace (a <? maxpc) with false by lia. split; [repeat split; assumption|reflexivity]. }
  replace (a <? maxpc) with true by lia. replace (nBreakPoints E d <? 8)%nat with true by lia. cbn [andb].
  destruct (existsb (fun i => breakPoint E d i =? a) (seq 0 (nBreakPoints E d))) eqn:X.
  - apply listed_in in X. destruct (in_dec Z.eq_dec a (listed E d)) as [I|I]; [|contradiction]. split; [repeat split; assumption|reflexivity].
  - assert (X' : ~ In a (listed E d)) by (rewrite <- listed_in, X; discriminate).
    destruct (in_dec Z.eq_dec a (listed E d)) as [I|I]; [contradiction|]. cbn [negb].
    assert (Q : listed E (with_break E (upd (breakPoint E d) (nBreakPoints E d) a) (nBreakPoints E d + 1) d) = listed E d ++ [a]).
    { unfold listed, with_break. cbn [breakPoint nBreakPoints]. rewrite seq_app, map_app. cbn [seq map plus].
      rewrite map_upd_old by lia. f_equal. f_equal. unfold upd. rewrite Nat.eqb_refl. reflexivity. }
    split; [|exact Q]. unfold sound. rewrite Q. split; [|split; [rewrite app_length; cbn [length]; lia|split; assumption]].
    apply NoDup_rev in N. rewrite <- (rev_involutive (listed E d ++ [a])). apply NoDup_rev. rewrite rev_app_distr. cbn [rev app].
    constructor; [rewrite <- in_rev; exact X'|exact N].
Qed.

Lemma shift_at m : forall i a j, (1 <= i)%nat ->
  shift m i a j = if ((i - 1 <=? j) && (j <? i - 1 + m))%nat then a (Datatypes.S j) else a j.
Proof.
  induction m as [|m IH]; intros i a j I; cbn [shift].
  - replace ((i - 1 <=? j) && (j <? i - 1 + 0))%nat with false by lia. reflexivity.
  - rewrite IH by lia. unfold upd.
    destruct (Nat.eqb_spec j (i - 1)) as [J|J].
    + replace ((i + 1 - 1 <=? j) && (j <? i + 1 - 1 + m))%nat with false by lia.
      replace ((i - 1 <=? j) && (j <? i - 1 + Datatypes.S m))%nat with true by lia. f_equal. lia.
    + replace (Datatypes.S j =? i - 1)%nat with ((i - 1 =? Datatypes.S j)%nat) by lia.
      destruct ((i + 1 - 1 <=? j) && (j <? i + 1 - 1 + m))%nat eqn:C.
      * replace ((i - 1 <=? j) && (j <? i - 1 + Datatypes.S m))%nat with true by lia. replace (i - 1 =? Datatypes.S j)%nat with false by lia. reflexivity.
      * replace ((i - 1 <=? j) && (j <? i - 1 + Datatypes.S m))%nat with false by lia. reflexivity.
Qed.

Lemma bc_listed E k (d : dbg E) : sound d ->
  sound (cmd_bc E k d) /\
  listed E (cmd_bc E k d) =
    if (1 <=? k) && (k <=? Z.of_nat (length (listed E d))) then firstn (Z.to_nat k - 1) (listed E d) ++ skipn (Z.to_nat k) (listed E d)
    else listed E d.
Proof.
  intros (N & L & T1 & T2). pose proof (listed_length E d) as Le. unfold cmd_bc, delete_break. rewrite Le.
  destruct ((1 <=? k) && (k <=? Z.of_nat (nBreakPoints E d))) eqn:C; [|split; [repeat split; assumption|reflexivity]].
  assert (Q : listed E (with_break E (shift (nBreakPoints E d - Z.to_nat k) (Z.to_nat k) (breakPoint E d)) (nBreakPoints E d - 1) d) =
    firstn (Z.to_nat k - 1) (listed E d) ++ skipn (Z.to_nat k) (listed E d)).
  { remember (Z.to_nat k - 1)%nat as p eqn:Hp. remember (nBreakPoints E d - Z.to_nat k)%nat as m eqn:Hm.
    assert (Hk : Z.to_nat k = Datatypes.S p) by lia.
    unfold listed, with_break. cbn [breakPoint nBreakPoints]. replace (nBreakPoints E d) with (p + Datatypes.S m)%nat by lia.
    replace (p + Datatypes.S m - 1)%nat with (p + m)%nat by lia. rewrite Hk, !seq_app, !map_app. cbn [plus seq map].
    rewrite firstn_app, map_length, seq_length, Nat.sub_diag. cbn [firstn]. rewrite app_nil_r.
    rewrite firstn_all2 by (rewrite map_length, seq_length; lia).
    rewrite skipn_app, map_length, seq_length. rewrite skipn_all2 by (rewrite map_length, seq_length; lia).
    replace (Datatypes.S p - p)%nat with 1%nat by lia. cbn [skipn app]. f_equal.
    - apply map_ext_in. intros j J. apply in_seq in J. rewrite shift_at by lia.
      replace ((Datatypes.S p - 1 <=? j) && (j <? Datatypes.S p - 1 + m))%nat with false by lia. reflexivity.
    - rewrite <- seq_shift, map_map. apply map_ext_in. intros j J. apply in_seq in J. rewrite shift_at by lia.
      replace ((Datatypes.S p - 1 <=? j) && (j <? Datatypes.S p - 1 + m))%nat with true by lia. reflexivity. }
  split; [|exact Q]. unfold sound. rewrite Q.
  assert (Sp : listed E d = firstn (Z.to_nat k - 1) (listed E d) ++ skipn (Z.to_nat k - 1) (listed E d)) by (symmetry; apply firstn_skipn).
  assert (Sk : exists x, skipn (Z.to_nat k - 1) (listed E d) = x :: skipn (Z.to_nat k) (listed E d)).
  { destruct (skipn (Z.to_nat k - 1) (listed E d)) as [|x r] eqn:R.
    - apply (f_equal (@length Z)) in R. rewrite skipn_length in R. cbn [length] in R. lia.
    - exists x. f_equal. replace (Z.to_nat k) with (1 + (Z.to_nat k - 1))%nat by lia.
      rewrite <- (firstn_skipn (Z.to_nat k - 1) (listed E d)) at 1. rewrite R.
      rewrite skipn_app, firstn_length. rewrite skipn_all2 by (rewrite firstn_length; lia). rewrite Nat.min_l by lia.
      replace (1 + (Z.to_nat k - 1) - (Z.to_nat k - 1))%nat with 1%nat by lia. reflexivity. }
  destruct Sk as (x & Sk). rewrite Sk in Sp. split; [|split; [|split; assumption]].
  - rewrite Sp in N. apply NoDup_remove_1 in N. exact N.
  - rewrite app_length, firstn_length, skipn_length. lia.
Qed.
