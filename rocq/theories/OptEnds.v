(** The optimization of a program without troublesome instructions ends. *)

From Coq Require Import ZArith Bool List Lia ZifyBool Sorted.
From Verif Require Import Words State Opcodes Machine VmSpec EncodeSpec OptSpec OptStep OptPassSpec OptExcept OptTable PoptModel PoptLongModel
  StrOptSpec StrOptProofs OptRunSpec OptRun OptPlain OptMeasure.
Import ListNotations.
Open Scope Z_scope.

(** ** The passes *)
Lemma push_W o : check_push o = true -> forall d, W d o = (200 + d)%nat.
Proof.
  unfold check_push, one_of. cbn [existsb]. rewrite !orb_true_iff, !Z.eqb_eq. intros H d. unfold W.
  destruct H as [H|[H|[H|H]]]; [rewrite H; reflexivity..|discriminate H].
Qed.
Lemma nopush_W o : check_push o = false -> pushb (op o) = false.
Proof. unfold check_push, one_of, pushb. cbn [existsb]. rewrite orb_false_r, !orb_assoc. auto. Qed.
Lemma W_arg2 d o v : W d (set_arg2 o v) = W d o.
Proof. reflexivity. Qed.
Lemma two_dists (v : list opType) ds i x y r : length ds = length v -> StronglySorted gt ds -> Forall (fun d => d < 16)%nat ds -> skipn i v = x :: y :: r ->
  exists d1 d2 dr, skipn i ds = d1 :: d2 :: dr /\ (d2 < d1 < 16)%nat /\ (i + 2 <= length v)%nat.
Proof.
  intros L Hs F E. assert (Le : length (skipn i ds) = length (skipn i v)) by (rewrite !skipn_length; lia).
  assert (Li : length (skipn i v) = S (S (length r))) by (rewrite E; reflexivity). rewrite E in Le. rewrite skipn_length in Li.
  apply (Sorted_skipn _ i) in Hs. apply (Forall_skipn' _ i) in F. destruct (skipn i ds) as [|d1 [|d2 dr]]; try discriminate.
  exists d1, d2, dr. inversion_clear Hs as [|? ? S1 S2]. inversion_clear S2. inversion_clear F. repeat split; lia.
Qed.
Lemma three_dists (v : list opType) ds i x y z r : length ds = length v -> StronglySorted gt ds -> Forall (fun d => d < 16)%nat ds -> skipn i v = x :: y :: z :: r ->
  exists d1 d2 d3 dr, skipn i ds = d1 :: d2 :: d3 :: dr /\ (d3 < d2 < d1)%nat /\ (d1 < 16)%nat /\ (i + 3 <= length v)%nat.
Proof.
  intros L Hs F E. assert (Le : length (skipn i ds) = length (skipn i v)) by (rewrite !skipn_length; lia).
  assert (Li : length (skipn i v) = S (S (S (length r)))) by (rewrite E; reflexivity). rewrite E in Le. rewrite skipn_length in Li.
  apply (Sorted_skipn _ i) in Hs. apply (Forall_skipn' _ i) in F. destruct (skipn i ds) as [|d1 [|d2 [|d3 dr]]]; try discriminate.
  exists d1, d2, d3, dr. inversion_clear Hs as [|? ? S1 S2]. inversion_clear S1 as [|? ? S3 S4]. inversion_clear S2. inversion_clear S4. inversion_clear F. repeat split; lia.
Qed.

Ltac consts :=
  cbn [op set_op set_arg2 nop dec8_code dec24_code];
  repeat match goal with
         | |- context [wt ?z] => lazymatch z with op _ => fail | _ => let w := eval vm_compute in (wt z) in change (wt z) with w end
         | |- context [pushb ?z] => lazymatch z with op _ => fail | _ => let w := eval vm_compute in (pushb z) in change (pushb z) with w end
         end; cbv iota.
Ltac ends := repeat apply Forall_cons; try apply Forall_nil; first [assumption|reflexivity|idtac].
Ltac sizes := split; [ends|split; [cbn [length]; lia|split; [lia|]]]; unfold down; cbn [length firstn Wl].

Lemma unary_down : body_down unary_body.
Proof.
  intros v i a p os nx ch ds T N L Hs F. unfold unary_body. pose proof (skipn_tame i v T) as T'. pose proof (Forall_skipn' _ i _ N) as N'.
  destruct (skipn i v) as [|x [|y r]] eqn:Es; try discriminate. destruct (two_dists v ds i x y r L Hs F Es) as (d1 & d2 & dr & Ed & Hd & Hi).
  inversion_clear T' as [|? ? Tx Ty']. inversion_clear Ty' as [|? ? Ty _]. inversion_clear N' as [|? ? Nx Ny']. inversion_clear Ny' as [|? ? Ny _].
  intros [= E]. revert E. unfold unary_step.
  pose proof (notend_expand x Nx) as Nx'. unfold tame in Tx, Ty.
  destruct (check_push x) eqn:Px.
  - pose proof (push_W x Px) as Wx. unfold unary_push. unfold u_fold, u_skip, u_drop, u_to, u_cmp, u_muldiv, u_jump, u_two, u_to, u_skip, u_drop.
    destruct (decode_op8 (op y)) as [d|] eqn:D;
      [assert (D0 : decode_op24 (op y) = None) by (rewrite (dec8_inv _ _ D); destruct d; reflexivity); rewrite D0; destruct d; try (excluded D Ty)
      |destruct (decode_op24 (op y)) as [d|] eqn:D'; [destruct d; try (excluded24 D' Ty)|]];
      try pose proof (dec8_inv _ _ D) as Ey; try pose proof (dec24_inv _ _ D') as Ey';
      splits; intros [= <- <- <- <- <-]; rewrite Es, Ed; sizes; rewrite ?W_arg2, ?W_expand, ?Wx;
      first [lia|unfold W; first [rewrite Ey'|rewrite Ey]; consts; lia].
  - destruct (op x =? oINDS) eqn:E1; [|destruct (op x =? oINCS) eqn:E2; [|destruct (op x =? oINC) eqn:E3; [|destruct (op x =? oDEC) eqn:E4]]]; cbn [orb];
      repeat match goal with |- context [if ?c then _ else _] => destruct c eqn:?Ec end; intros [= <- <- <- <- <-]; try rewrite Es, Ed;
      sizes; rewrite ?W_arg2; try lia;
      apply Z.eqb_eq in Ec; unfold W; rewrite Ec; try (apply Z.eqb_eq in E1; rewrite E1); try (apply Z.eqb_eq in E2; rewrite E2); consts; lia.
Qed.
Lemma binary_down : body_down binary_body.
Proof.
  intros v i a p os nx ch ds T N L Hs F. unfold binary_body. pose proof (skipn_tame i v T) as T'. pose proof (Forall_skipn' _ i _ N) as N'.
  destruct (skipn i v) as [|x [|y [|z r]]] eqn:Es; try discriminate. destruct (three_dists v ds i x y z r L Hs F Es) as (d1 & d2 & d3 & dr & Ed & Hd & Hd' & Hi).
  inversion_clear T' as [|? ? Tx T1]. inversion_clear T1 as [|? ? Ty T2]. inversion_clear T2 as [|? ? Tz _].
  inversion_clear N' as [|? ? Nx N1]. inversion_clear N1 as [|? ? Ny N2]. inversion_clear N2 as [|? ? Nz _].
  intros [= E]. revert E. unfold binary_step, stay.
  pose proof (notend_expand x Nx) as Nx'. pose proof (notend_expand y Ny) as Ny'. unfold tame in Tx, Ty, Tz.
  assert (K : decode_op8 (op z) = None -> check_binary z = true -> False).
  { intros D C. unfold check_binary, one_of in C. apply existsb_exists in C. destruct C as (c & Ic & Ec). apply Z.eqb_eq in Ec. rewrite Ec in D.
    cbn [In] in Ic. repeat (destruct Ic as [<-|Ic]; [discriminate D|]). exact Ic. }
  assert (K' : forall d, decode_op8 (op z) = Some d -> check_binary z = true -> In d [ADD; OR; AND; EQU; NEQ]).
  { intros d D C. unfold check_binary, one_of in C. apply existsb_exists in C. destruct C as (c & Ic & Ec). apply Z.eqb_eq in Ec. rewrite Ec in D, Tz.
    cbn [In] in Ic. repeat (destruct Ic as [<-|Ic]; [first [discriminate Tz|injection D as <-; cbn; tauto]|]). destruct Ic. }
  destruct (check_push x) eqn:Px; [pose proof (push_W x Px) as Wx|]; (destruct (check_push y) eqn:Py; [pose proof (push_W y Py) as Wy|]); cbn [andb].
  - destruct (check_binary z) eqn:Cz.
    { unfold binary_consts, b_fold. destruct (decode_op8 (op z)) as [d|] eqn:D; [|destruct (K eq_refl eq_refl)]. pose proof (K' d eq_refl eq_refl) as Kd.
      pose proof (dec8_inv _ _ D) as Ez.
      cbn [In] in Kd. repeat (destruct Kd as [<-|Kd]; [intros [= <- <- <- <- <-]; rewrite Es, Ed; sizes; rewrite ?W_arg2, ?W_expand, ?Wx, ?Wy; unfold W; rewrite ?Ez; consts; lia|]).
      destruct Kd. }
    assert (Oy : one_of [oLDS; oLDSB; oULDSB; oLAS; oLAC; oLAR] y = false).
    { unfold check_push, one_of in *. cbn [existsb] in *. rewrite !orb_true_iff, !Z.eqb_eq in Py. destruct Py as [H|[H|[H|H]]]; [rewrite H; reflexivity..|discriminate]. }
    rewrite Oy. destruct (check_load y); cbn [andb]; (destruct (op x =? oNEG) eqn:En; [apply Z.eqb_eq in En; rewrite En in Tx; discriminate Tx|]);
      intros [= <- <- <- <- <-]; try rewrite Es, Ed; sizes; lia.
  - destruct (one_of _ y).
    { unfold binary_frame, f_zero, f_mul, f_to, f_drop, f_skip.
      destruct (decode_op8 (op z)) as [d|] eqn:D; [pose proof (dec8_inv _ _ D) as Ez; destruct d; try (excluded D Tz)|];
      splits; try discriminate; intros [= <- <- <- <- <-]; rewrite Es, Ed; sizes; rewrite ?W_arg2, ?W_expand, ?Wx;
      first [lia|pose proof (nopush_W y Py) as Qy; unfold W; rewrite ?Ez, ?Qy; consts; lia]. }
    destruct (check_load y) eqn:Ly; cbn [andb]; [destruct (check_binary z) eqn:Cz|].
    { unfold binary_swap, f_skip. destruct (check_transitive z).
      - intros [= <- <- <- <- <-]; rewrite Es, Ed; sizes; rewrite ?W_arg2, ?W_expand, ?Wx. pose proof (nopush_W y Py) as Qy. unfold W. rewrite ?Qy. lia.
      - destruct (decode_op8 (op z)) as [d|] eqn:D; [destruct d; try (excluded D Tz)|]; intros [= <- <- <- <- <-]; rewrite Es, Ed; sizes; rewrite ?W_arg2, ?W_expand; lia. }
    all: (destruct (op x =? oNEG) eqn:En; [apply Z.eqb_eq in En; rewrite En in Tx; discriminate Tx|]); intros [= <- <- <- <- <-]; sizes; lia.
  - destruct (check_binary z) eqn:Cz.
    { destruct (check_address x); unfold binary_address, binary_any, x_skip, x_drop, x_to;
        (destruct (decode_op8 (op z)) as [d|] eqn:D; [pose proof (dec8_inv _ _ D) as Ez; destruct d; try (excluded D Tz)|]);
        splits; try discriminate; intros [= <- <- <- <- <-]; rewrite Es, Ed; sizes; rewrite ?W_arg2, ?W_expand, ?Wy;
        first [lia|unfold W; rewrite ?Ez; consts; lia]. }
    (destruct (op x =? oNEG) eqn:En; [apply Z.eqb_eq in En; rewrite En in Tx; discriminate Tx|]); intros [= <- <- <- <- <-]; sizes; lia.
  - (destruct (op x =? oNEG) eqn:En; [apply Z.eqb_eq in En; rewrite En in Tx; discriminate Tx|]); intros [= <- <- <- <- <-]; sizes; lia.
Qed.
Lemma branch_down : body_down branch_body.
Proof.
  intros v i a p os nx ch ds T N L Hs F. unfold branch_body. pose proof (skipn_tame i v T) as T'. pose proof (Forall_skipn' _ i _ N) as N'.
  destruct (skipn i v) as [|x [|y r]] eqn:Es; try discriminate. destruct (two_dists v ds i x y r L Hs F Es) as (d1 & d2 & dr & Ed & Hd & Hi).
  inversion_clear T' as [|? ? Tx Ty']. inversion_clear Ty' as [|? ? Ty _]. inversion_clear N' as [|? ? Nx Ny']. inversion_clear Ny' as [|? ? Ny _].
  intros [= E]. revert E. unfold branch_step, br_cmp, br_to, br_first, stay. unfold tame in Tx, Ty.
  destruct (op y =? oNOT) eqn:E0; [apply Z.eqb_eq in E0; rewrite E0 in Ty; discriminate Ty|].
  destruct (decode_op8 (op x)) as [d|] eqn:D; [pose proof (dec8_inv _ _ D) as Ex; destruct d; try (excluded D Tx)|];
    try (destruct (op y =? oJEQUZ) eqn:E1; [|destruct (op y =? oJNEQZ) eqn:E2]);
    intros [= <- <- <- <- <-]; try rewrite Es, Ed; sizes; first [lia|unfold W; rewrite Ex; try (apply Z.eqb_eq in E1; rewrite E1); try (apply Z.eqb_eq in E2; rewrite E2); consts; lia].
Qed.
Lemma stack_down : body_down stack_body.
Proof.
  intros v i a p os nx ch ds T N L Hs F. unfold stack_body. destruct i as [|[|j]]; try discriminate.
  pose proof (skipn_tame j v T) as T'. pose proof (Forall_skipn' _ j _ N) as N'.
  destruct (skipn j v) as [|x [|y [|z r]]] eqn:Es; try discriminate. destruct (three_dists v ds j x y z r L Hs F Es) as (d1 & d2 & d3 & dr & Ed & Hd & Hd' & Hi).
  inversion_clear T' as [|? ? Tx T1]. inversion_clear T1 as [|? ? Ty T2]. inversion_clear T2 as [|? ? Tz _].
  inversion_clear N' as [|? ? Nx N1]. inversion_clear N1 as [|? ? Ny N2]. inversion_clear N2 as [|? ? Nz _].
  intros [= E]. revert E. unfold stack_step, so_next. unfold tame in Tz.
  assert (Wn : forall o d, In (op o) [oDUP; oPUSH; oPUSHB; oUPUSHB; oLD; oLDB; oULDB; oLDS; oLDSB; oULDSB; oLA; oLAS; oLAC; oLAR] -> (0 < W d o)%nat).
  { intros o d I. unfold W. cbn [In] in I. repeat (destruct I as [<-|I]; [consts; lia|]). destruct I. }
  destruct (op z =? oXCHG) eqn:E1; [apply Z.eqb_eq in E1|destruct (op z =? oINDS) eqn:E2].
  - destruct (_ && _); intros [= <- <- <- <- <-]; try rewrite Es, Ed; sizes; [|lia].
    right. unfold W. rewrite E1. consts. destruct (pushb (op x)), (pushb (op y)); lia.
  - destruct (_ && (check_load y || (op y =? oDUP))) eqn:C1; [|destruct (_ && (op x =? oDUP)) eqn:C2].
    + intros [= <- <- <- <- <-]; rewrite Es, Ed; sizes; rewrite ?W_arg2. apply andb_true_iff in C1. destruct C1 as (_ & C1).
      assert (G : (0 < W d2 y)%nat).
      { apply Wn. apply orb_true_iff in C1. destruct C1 as [C1|C1]; [|apply Z.eqb_eq in C1; rewrite C1; left; reflexivity].
        unfold check_load, one_of in C1. apply existsb_exists in C1. destruct C1 as (c & I & Ec). apply Z.eqb_eq in Ec. rewrite Ec. right. exact I. }
      change (W d2 nop) with 0%nat. lia.
    + intros [= <- <- <- <- <-]; rewrite Es, Ed; sizes; rewrite ?W_arg2. apply andb_true_iff in C2. destruct C2 as (_ & C2). apply Z.eqb_eq in C2.
      assert (G : (0 < W d1 x)%nat) by (apply Wn; rewrite C2; left; reflexivity). change (W d1 nop) with 0%nat. lia.
    + intros [= <- <- <- <- <-]; sizes; lia.
  - intros [= <- <- <- <- <-]; sizes; lia.
Qed.
Lemma load_down : body_down load_body.
Proof.
  intros v i a p os nx ch ds T N L Hs F. unfold load_body. pose proof (skipn_tame i v T) as T'. pose proof (Forall_skipn' _ i _ N) as N'.
  destruct (skipn i v) as [|x [|y r]] eqn:Es; try discriminate. destruct (two_dists v ds i x y r L Hs F Es) as (d1 & d2 & dr & Ed & Hd & Hi).
  inversion_clear T' as [|? ? Tx T1]. inversion_clear T1 as [|? ? Ty Tr]. inversion_clear N' as [|? ? Nx N1]. inversion_clear N1 as [|? ? Ny Nr].
  intros [= E]. revert E. unfold load_step, stay. unfold tame in Ty.
  destruct (one_of _ x) eqn:Ox.
  { destruct (same_op x y) eqn:Sm; intros [= <- <- <- <- <-]; try rewrite Es, Ed; sizes; [|lia]. right.
    unfold same_op in Sm. rewrite !andb_true_iff, !Z.eqb_eq in Sm. destruct Sm as ((Sm & _) & _).
    unfold one_of in Ox. apply existsb_exists in Ox. destruct Ox as (c & Ic & Ec). apply Z.eqb_eq in Ec. rewrite Ec in Sm. unfold W. rewrite Sm.
    cbn [In] in Ic. repeat (destruct Ic as [<-|Ic]; [consts; lia|]). destruct Ic. }
  destruct (check_push x) eqn:Px; [|intros [= <- <- <- <- <-]; sizes; lia]. pose proof (push_W x Px) as Wx.
  cbv zeta. destruct (unindexed (op y)) as [z|] eqn:U.
  - intros [= <- <- <- <- <-]. rewrite Es, Ed. unfold unindexed in U.
    repeat match type of U with
           | (if ?c then _ else _) = _ =>
             let H := fresh in destruct c eqn:H;
             [apply Z.eqb_eq in H; rewrite H in Ty; first [discriminate Ty|injection U as <-; sizes; rewrite Wx; unfold W; rewrite H; consts; lia]|]
           end. discriminate U.
  - destruct r as [|z r]; [intros [= <- <- <- <- <-]; sizes; lia|]. inversion_clear Tr as [|? ? Tz _]. unfold tame in Tz.
    destruct (op z =? oLDXM) eqn:E1; [apply Z.eqb_eq in E1; rewrite E1 in Tz; discriminate Tz|].
    destruct (op z =? oLDSXM) eqn:E2; [apply Z.eqb_eq in E2; rewrite E2 in Tz; discriminate Tz|].
    splits; intros [= <- <- <- <- <-]; sizes; lia.
Qed.
Lemma store_down : body_down store_body.
Proof.
  intros v i a p os nx ch ds T N L Hs F. unfold store_body. pose proof (skipn_tame i v T) as T'. pose proof (Forall_skipn' _ i _ N) as N'.
  destruct (skipn i v) as [|x [|y r]] eqn:Es; try discriminate. destruct (two_dists v ds i x y r L Hs F Es) as (d1 & d2 & dr & Ed & Hd & Hi).
  inversion_clear T' as [|? ? Tx T1]. inversion_clear T1 as [|? ? Ty Tr]. inversion_clear N' as [|? ? Nx N1]. inversion_clear N1 as [|? ? Ny Nr].
  intros [= E]. revert E. unfold store_step, stay. unfold tame in Tx, Ty.
  destruct (check_store x).
  { destruct (_ && store_load _ _) eqn:Sl; intros [= <- <- <- <- <-]; try rewrite Es, Ed.
    - apply andb_true_iff in Sl. destruct Sl as (_ & Sl). unfold store_load in Sl. rewrite !orb_true_iff, !andb_true_iff, !Z.eqb_eq in Sl.
      destruct Sl as [[[(Sx & Sy)|(Sx & Sy)]|(Sx & Sy)]|(Sx & Sy)]; rewrite Sx in *; try discriminate Tx; sizes; unfold W; rewrite ?Sx, ?Sy; consts; lia.
    - sizes; lia. }
  destruct r as [|z r]; [splits; intros [= <- <- <- <- <-]; sizes; lia|]. inversion_clear Tr as [|? ? Tz _]. unfold tame in Tz.
  destruct (op z =? oSTSX) eqn:E1; [apply Z.eqb_eq in E1; rewrite E1 in Tz; discriminate Tz|].
  destruct (op z =? oSTSXB) eqn:E2; [apply Z.eqb_eq in E2; rewrite E2 in Tz; discriminate Tz|].
  splits; intros [= <- <- <- <- <-]; sizes; lia.
Qed.
