(** Proofs about the set operations. *)

From Coq Require Import ZArith Bool List Lia ZifyBool Permutation.
From Verif Require Import Words State Opcodes SetModel LongModel Machine WordLemmas StateLemmas VmSpec VmProofs MemProofs LongProofs SetSpec.
Import ListNotations.
Open Scope Z_scope.
Ltac Zify.zify_post_hook ::= Z.div_mod_to_equations.

(** ** Writing words *)

(** Same machine except for memory contents *)
Definition same_but_mem (s t : st) : Prop := same_regs s t /\ sp t = sp s /\ pc t = pc s.

Lemma sbm_refl s : same_but_mem s s.
Proof. repeat split. Qed.
Lemma sbm_trans s t u : same_but_mem s t -> same_but_mem t u -> same_but_mem s u.
Proof. unfold same_but_mem, same_regs. intuition congruence. Qed.
Lemma sbm_in s t i : same_but_mem s t -> in_word t i = in_word s i.
Proof. intros ((H & _) & _). apply in_word_cf, H. Qed.

Lemma wr_ex s i v : in_word s i = true ->
  exists t, wr s i v = Some t /\ same_but_mem s t /\ rd t i = Some (u16 v) /\
    forall j, j <> i -> rd t j = rd s j.
Proof.
  intros H. rewrite (wr_in _ _ _ H). eexists; split; [reflexivity|].
  split; [repeat split|]. unfold rd.
  change (in_word (with_mem s (upd (mem s) i (u16 v)))) with (in_word s).
  cbn [mem with_mem]. rewrite H, upd_same, u16_u16. split; [reflexivity|].
  intros j Hj. rewrite upd_other by exact Hj. reflexivity.
Qed.

Lemma rd_is_in s i v : rd s i = Some v -> in_word s i = true.
Proof. intros [H _]%rd_some. exact H. Qed.

(** Four words written in a row *)
Definition four_written (s t : st) (i : Z) (ws : list Z) : Prop :=
  same_but_mem s t /\ length ws = 4%nat /\
  (forall j v, nth_error ws j = Some v -> rd t (i + Z.of_nat j) = Some v) /\
  (forall j, ~ (i <= j < i + 4) -> rd t j = rd s j).

Lemma words4_ok f s di si a0 a1 a2 a3 b0 b1 b2 b3 :
  di + 4 <= si ->
  rd s di = Some a0 -> rd s (di + 1) = Some a1 -> rd s (di + 2) = Some a2 -> rd s (di + 3) = Some a3 ->
  rd s si = Some b0 -> rd s (si + 1) = Some b1 -> rd s (si + 2) = Some b2 -> rd s (si + 3) = Some b3 ->
  exists t, words4 f s di si = Some t /\
    four_written s t di [u16 (f a0 b0); u16 (f a1 b1); u16 (f a2 b2); u16 (f a3 b3)].
Proof.
  intros Hd A0 A1 A2 A3 B0 B1 B2 B3. unfold words4. rewrite A0, B0. cbn [bindO].
  destruct (wr_ex s di (f a0 b0)) as (t0 & -> & S0 & R0 & U0); [exact (rd_is_in _ _ _ A0)|]. cbn [bindO].
  rewrite (U0 (di + 1)), (U0 (si + 1)), A1, B1 by lia. cbn [bindO].
  destruct (wr_ex t0 (di + 1) (f a1 b1)) as (t1 & -> & S1 & R1 & U1).
  { rewrite (sbm_in _ _ _ S0). exact (rd_is_in _ _ _ A1). } cbn [bindO].
  rewrite (U1 (di + 2)), (U1 (si + 2)), (U0 (di + 2)), (U0 (si + 2)), A2, B2 by lia. cbn [bindO].
  destruct (wr_ex t1 (di + 2) (f a2 b2)) as (t2 & -> & S2 & R2 & U2).
  { rewrite (sbm_in _ _ _ S1), (sbm_in _ _ _ S0). exact (rd_is_in _ _ _ A2). } cbn [bindO].
  rewrite (U2 (di + 3)), (U2 (si + 3)), (U1 (di + 3)), (U1 (si + 3)), (U0 (di + 3)), (U0 (si + 3)), A3, B3 by lia.
  cbn [bindO].
  destruct (wr_ex t2 (di + 3) (f a3 b3)) as (t3 & -> & S3 & R3 & U3).
  { rewrite (sbm_in _ _ _ S2), (sbm_in _ _ _ S1), (sbm_in _ _ _ S0). exact (rd_is_in _ _ _ A3). }
  exists t3. split; [reflexivity|]. split; [|split; [reflexivity|split]].
  - eapply sbm_trans; [exact S0|]. eapply sbm_trans; [exact S1|]. eapply sbm_trans; eassumption.
  - intros [|[|[|[|j]]]] v; cbn [nth_error]; try (destruct j; discriminate); intros [= <-].
    + change (Z.of_nat 0) with 0. rewrite Z.add_0_r. rewrite U3, U2, U1 by lia. exact R0.
    + change (Z.of_nat 1) with 1. rewrite U3, U2 by lia. exact R1.
    + change (Z.of_nat 2) with 2. rewrite U3 by lia. exact R2.
    + exact R3.
  - intros j Hj. rewrite U3, U2, U1, U0 by lia. reflexivity.
Qed.

Lemma zero4_ok s i : in_word s i = true -> in_word s (i + 3) = true ->
  exists t, zero4 s i = Some t /\ four_written s t i [0; 0; 0; 0].
Proof.
  intros I0 I3.
  assert (I1 : in_word s (i + 1) = true) by (rewrite in_word_iff in *; lia).
  assert (I2 : in_word s (i + 2) = true) by (rewrite in_word_iff in *; lia).
  unfold zero4.
  destruct (wr_ex s i 0) as (t0 & -> & S0 & R0 & U0); [exact I0|]. cbn [bindO].
  destruct (wr_ex t0 (i + 1) 0) as (t1 & -> & S1 & R1 & U1); [rewrite (sbm_in _ _ _ S0); exact I1|]. cbn [bindO].
  destruct (wr_ex t1 (i + 2) 0) as (t2 & -> & S2 & R2 & U2); [rewrite (sbm_in _ _ _ S1), (sbm_in _ _ _ S0); exact I2|]. cbn [bindO].
  destruct (wr_ex t2 (i + 3) 0) as (t3 & -> & S3 & R3 & U3).
  { rewrite (sbm_in _ _ _ S2), (sbm_in _ _ _ S1), (sbm_in _ _ _ S0). exact I3. }
  exists t3. split; [reflexivity|]. split; [|split; [reflexivity|split]].
  - eapply sbm_trans; [exact S0|]. eapply sbm_trans; [exact S1|]. eapply sbm_trans; eassumption.
  - intros [|[|[|[|j]]]] v; cbn [nth_error]; try (destruct j; discriminate); intros [= <-].
    + change (Z.of_nat 0) with 0. rewrite Z.add_0_r. rewrite U3, U2, U1 by lia. exact R0.
    + change (Z.of_nat 1) with 1. rewrite U3, U2 by lia. exact R1.
    + change (Z.of_nat 2) with 2. rewrite U3 by lia. exact R2.
    + exact R3.
  - intros j Hj. rewrite U3, U2, U1, U0 by lia. reflexivity.
Qed.

(** ** Representation *)

Lemma set_at_inv s k ws : set_at s k ws ->
  exists a b c d, ws = [a; b; c; d] /\
    rd s (sp s / 2 - k - 3) = Some a /\ rd s (sp s / 2 - k - 3 + 1) = Some b /\
    rd s (sp s / 2 - k - 3 + 2) = Some c /\ rd s (sp s / 2 - k - 3 + 3) = Some d.
Proof.
  intros [L H]. destruct ws as [|a [|b [|c [|d [|]]]]]; try discriminate L.
  exists a, b, c, d. split; [reflexivity|].
  pose proof (H 0%nat ltac:(lia)) as H0. pose proof (H 1%nat ltac:(lia)) as H1.
  pose proof (H 2%nat ltac:(lia)) as H2. pose proof (H 3%nat ltac:(lia)) as H3.
  cbn [nth] in *. unfold tos in *.
  replace (sp s / 2 - (k + 3 - Z.of_nat 0)) with (sp s / 2 - k - 3) in H0 by lia.
  replace (sp s / 2 - (k + 3 - Z.of_nat 1)) with (sp s / 2 - k - 3 + 1) in H1 by lia.
  replace (sp s / 2 - (k + 3 - Z.of_nat 2)) with (sp s / 2 - k - 3 + 2) in H2 by lia.
  replace (sp s / 2 - (k + 3 - Z.of_nat 3)) with (sp s / 2 - k - 3 + 3) in H3 by lia.
  auto.
Qed.

Lemma set_at_range s k ws j : set_at s k ws -> 0 <= nth j ws 0 < 65536.
Proof.
  intros [L H]. destruct (Nat.lt_ge_cases j 4) as [Hj|Hj].
  - specialize (H j Hj). apply tos_range in H. exact H.
  - rewrite nth_overflow by lia. lia.
Qed.

Lemma member_of_bit ws i : 0 <= i < 64 ->
  (member_of ws i <-> Z.testbit (nth (Z.to_nat (i / 16)) ws 0) (i mod 16) = true).
Proof. unfold member_of. tauto. Qed.

(** A word-wise operation acts element-wise. *)
Lemma wordwise_member (g : bool -> bool -> bool) (f : Z -> Z -> Z) (a b r : list Z) i :
  0 <= i < 64 ->
  (forall j, (j < 4)%nat -> nth j r 0 = u16 (f (nth j a 0) (nth j b 0))) ->
  (forall x y j, 0 <= j < 16 -> Z.testbit (u16 (f x y)) j = g (Z.testbit x j) (Z.testbit y j)) ->
  Z.testbit (nth (Z.to_nat (i / 16)) r 0) (i mod 16) =
  g (Z.testbit (nth (Z.to_nat (i / 16)) a 0) (i mod 16)) (Z.testbit (nth (Z.to_nat (i / 16)) b 0) (i mod 16)).
Proof. intros Hi Hr Hf. rewrite Hr by lia. apply Hf. lia. Qed.

Lemma testbit_u16 x j : 0 <= j < 16 -> Z.testbit (u16 x) j = Z.testbit x j.
Proof.
  intros H. unfold u16. change 65536 with (2 ^ 16). rewrite Z.mod_pow2_bits_low by lia. reflexivity.
Qed.

Definition and_not (x y : bool) := x && negb y.

Lemma set_words_bits f g : In (f, g) [(w_and, andb); (w_or, orb); (w_andnot, and_not); (w_xor, xorb)] ->
  forall x y j, 0 <= j < 16 -> Z.testbit (u16 (f x y)) j = g (Z.testbit x j) (Z.testbit y j).
Proof.
  intros H x y j Hj. rewrite testbit_u16 by lia. cbn [In] in H.
  destruct H as [H|[H|[H|[H|[]]]]]; injection H as <- <-;
    unfold w_and, w_or, w_andnot, w_xor, and_not; rewrite testbit_u16 by lia.
  - apply Z.land_spec.
  - apply Z.lor_spec.
  - rewrite Z.land_spec, Z.lnot_spec by lia. reflexivity.
  - apply Z.lxor_spec.
Qed.

(** ** Set algebra *)

Lemma four_written_effect s t ws : 14 <= sp s < 65536 ->
  four_written s t (sp s / 2 - 7) ws -> stack_effect s (discard t 4) 8 ws /\ pc (discard t 4) = pc s.
Proof.
  intros Hs (((A1 & A2 & A3 & A4 & A5) & A6 & A7) & L & R & U). split; [|exact A7].
  unfold stack_effect, same_regs, discard. cbn [cf csp fp lsp fch sp with_sp].
  rewrite A6, L. rewrite u16_small by lia. repeat split; try assumption; try lia.
  - intros k v H. specialize (R k v H). unfold rd, in_word in *. cbn [mem cf with_sp].
    replace (sp s / 2 - 8 + 1 + Z.of_nat k) with (sp s / 2 - 7 + Z.of_nat k) by lia. exact R.
  - intros i Hi. change (rd (with_sp t _) i) with (rd t i). apply U. lia.
Qed.

Lemma set_binary_correct f g s A B :
  In (f, g) [(w_and, andb); (w_or, orb); (w_andnot, and_not); (w_xor, xorb)] ->
  0 <= sp s < 65536 -> set_at s 4 A -> set_at s 0 B ->
  exists s' ws, set_binary f s = Ok s' /\ stack_effect s s' 8 ws /\ pc s' = pc s /\ length ws = 4%nat /\
    forall i, 0 <= i < 64 ->
      Z.testbit (nth (Z.to_nat (i / 16)) ws 0) (i mod 16) =
      g (Z.testbit (nth (Z.to_nat (i / 16)) A 0) (i mod 16)) (Z.testbit (nth (Z.to_nat (i / 16)) B 0) (i mod 16)).
Proof.
  intros Hf Hs HA HB. destruct (set_at_inv _ _ _ HA) as (a0 & a1 & a2 & a3 & -> & A0 & A1 & A2 & A3).
  destruct (set_at_inv _ _ _ HB) as (b0 & b1 & b2 & b3 & -> & B0 & B1 & B2 & B3).
  replace (sp s / 2 - 4 - 3) with (sp s / 2 - 7) in * by lia.
  replace (sp s / 2 - 0 - 3) with (sp s / 2 - 3) in * by lia.
  destruct (words4_ok f s (sp s / 2 - 7) (sp s / 2 - 3) a0 a1 a2 a3 b0 b1 b2 b3) as (t & E & F); try assumption; [lia|].
  unfold set_binary. rewrite E. cbn [bindo].
  assert (14 <= sp s) by (apply rd_is_in, in_word_iff in A0; lia).
  destruct (four_written_effect s t _ ltac:(lia) F) as [G1 G2].
  eexists; eexists; split; [reflexivity|]. split; [exact G1|]. split; [exact G2|]. split; [reflexivity|].
  intros i Hi. apply wordwise_member with (f := f); [exact Hi| |exact (set_words_bits f g Hf)].
  intros [|[|[|[|j]]]] Hj; try lia; reflexivity.
Qed.

Lemma set_algebra_correct : forall c op s A B x,
  In (c, op) set_algebra -> 0 <= sp s < 65536 -> set_at s 4 A -> set_at s 0 B ->
  exists s' ws, exec_insn s (mkOp oSETOP c x) = Ok s' /\ stack_effect s s' 8 ws /\
    represents ws (fun i => op (member_of A i) (member_of B i)) /\ pc s' = (pc s + 2) mod 65536.
Proof.
  intros c op s A B x H Hs HA HB.
  assert (K : forall f g, In (f, g) [(w_and, andb); (w_or, orb); (w_andnot, and_not); (w_xor, xorb)] ->
    (forall p q, g p q = true <-> op (p = true) (q = true)) ->
    (forall P P' Q Q' : Prop, (P <-> P') -> (Q <-> Q') -> (op P Q <-> op P' Q')) ->
    exists s' ws, set_binary f (with_pc s (u16 (pc s + 2))) = Ok s' /\ stack_effect s s' 8 ws /\
    represents ws (fun i => op (member_of A i) (member_of B i)) /\ pc s' = (pc s + 2) mod 65536).
  { intros f g Hf Hg Hc.
    destruct (set_binary_correct f g (with_pc s (u16 (pc s + 2))) A B Hf Hs HA HB) as (s' & ws & E & F & P & L & T).
    exists s', ws. split; [exact E|]. split; [exact F|]. split; [|exact P].
    split; [exact L|]. intros i Hi. rewrite member_of_bit, T, Hg by exact Hi.
    apply Hc; symmetry; apply member_of_bit; exact Hi. }
  cbn [In set_algebra] in H.
  destruct H as [H|[H|[H|[H|[]]]]]; injection H as <- <-.
  - apply (K w_and andb); [cbn; tauto| |tauto]. intros [] []; cbn; intuition discriminate.
  - apply (K w_or orb); [cbn; tauto| |tauto]. intros [] []; cbn; intuition discriminate.
  - apply (K w_andnot and_not); [cbn; tauto| |tauto]. intros [] []; cbn; intuition discriminate.
  - apply (K w_xor xorb); [cbn; tauto| |tauto]. intros [] []; cbn; intuition discriminate.
Qed.

(** ** Relations *)

Lemma rd4_ok s i a b c d : rd s i = Some a -> rd s (i + 1) = Some b -> rd s (i + 2) = Some c -> rd s (i + 3) = Some d ->
  rd4 s i = Some (a, b, c, d).
Proof. intros A B C D. unfold rd4. rewrite A, B, C, D. reflexivity. Qed.

(** Replacing the word [k] below the top by the result and discarding [k] words *)
Lemma put_discard s k v : 0 <= k -> 0 <= v < 65536 -> in_word s (sp s / 2 - k) = true -> sp s < 65536 ->
  exists t, puttos s k v = Some t /\ stack_effect s (discard t k) (k + 1) [v] /\ pc (discard t k) = pc s.
Proof.
  intros Hk Hv Hi Hs. unfold puttos.
  destruct (wr_ex s (sp s / 2 - k) v Hi) as (t & -> & ((A1 & A2 & A3 & A4 & A5) & A6 & A7) & R & U).
  exists t. split; [reflexivity|]. split; [|exact A7].
  apply in_word_iff in Hi.
  unfold stack_effect, same_regs, discard. cbn [cf csp fp lsp fch sp with_sp length].
  rewrite A6. rewrite u16_small by lia. repeat split; try assumption; try lia.
  - intros [|[|j]] w; cbn [nth_error]; try discriminate. intros [= <-].
    change (rd (with_sp t _) ?i) with (rd t i).
    replace (sp s / 2 - (k + 1) + 1 + Z.of_nat 0) with (sp s / 2 - k) by lia. rewrite R, u16_small by lia. reflexivity.
  - intros i Hj. change (rd (with_sp t _) i) with (rd t i). apply U. lia.
Qed.

Lemma pbool_range b : 0 <= pbool b < 65536.
Proof. destruct b; cbn; lia. Qed.

Lemma word_ext x y : 0 <= x < 65536 -> 0 <= y < 65536 ->
  (forall j, 0 <= j < 16 -> Z.testbit x j = Z.testbit y j) -> x = y.
Proof.
  intros Hx Hy H. rewrite <- (u16_small x Hx), <- (u16_small y Hy). unfold u16. change 65536 with (2 ^ 16).
  apply Z.bits_inj'. intros j Hj. destruct (Z.lt_ge_cases j 16).
  - rewrite !Z.mod_pow2_bits_low by lia. apply H. lia.
  - rewrite !Z.mod_pow2_bits_high by lia. reflexivity.
Qed.

(** Elements of word [j] *)
Lemma members_word ws j n : (j < 4)%nat -> 0 <= n < 16 ->
  (member_of ws (16 * Z.of_nat j + n) <-> Z.testbit (nth j ws 0) n = true).
Proof.
  intros Hj Hn. rewrite member_of_bit by lia.
  replace ((16 * Z.of_nat j + n) / 16) with (Z.of_nat j) by lia.
  replace ((16 * Z.of_nat j + n) mod 16) with n by lia. rewrite Nat2Z.id. reflexivity.
Qed.

Lemma sets_eq A B : length A = 4%nat -> length B = 4%nat ->
  (forall j, 0 <= nth j A 0 < 65536) -> (forall j, 0 <= nth j B 0 < 65536) ->
  (A = B <-> forall i, member_of A i <-> member_of B i).
Proof.
  intros LA LB RA RB. split; [intros ->; tauto|]. intros H.
  apply nth_ext with (d := 0) (d' := 0); [lia|]. intros j Hj.
  apply word_ext; [apply RA|apply RB|]. intros n Hn. apply eq_true_iff_eq.
  rewrite <- !members_word by lia. apply H.
Qed.

Lemma eq4_iff a0 a1 a2 a3 b0 b1 b2 b3 :
  eq4 (a0, a1, a2, a3) (b0, b1, b2, b3) = true <-> [b0; b1; b2; b3] = [a0; a1; a2; a3].
Proof.
  unfold eq4. rewrite !andb_true_iff, !Z.eqb_eq. split.
  - intros (((-> & ->) & ->) & ->). reflexivity.
  - intros [= -> -> -> ->]. auto.
Qed.

Lemma land_sub x y : 0 <= x < 65536 -> 0 <= y < 65536 ->
  (Z.land x y =? y) = true <-> forall j, 0 <= j < 16 -> Z.testbit y j = true -> Z.testbit x j = true.
Proof.
  intros Hx Hy. rewrite Z.eqb_eq. split.
  - intros H j Hj T. rewrite <- H, Z.land_spec in T. apply andb_true_iff in T. apply T.
  - intros H. apply word_ext; [|exact Hy|].
    + split; [apply Z.land_nonneg; lia|].
      destruct (Z.eq_dec (Z.land x y) 0) as [->|N]; [lia|].
      apply Z.log2_lt_cancel. eapply Z.le_lt_trans; [apply Z.log2_land; lia|].
      change 65536 with (2 ^ 16). rewrite Z.log2_pow2 by lia.
      assert (Z.log2 y < 16) by (destruct (Z.eq_dec y 0) as [->|]; [cbn; lia|apply Z.log2_lt_pow2; lia]). lia.
    + intros j Hj. rewrite Z.land_spec. specialize (H j Hj). destruct (Z.testbit y j); [rewrite H by auto|]; destruct (Z.testbit x j); auto.
Qed.

Lemma contains_iff a0 a1 a2 a3 b0 b1 b2 b3 :
  (forall j, 0 <= nth j [a0; a1; a2; a3] 0 < 65536) -> (forall j, 0 <= nth j [b0; b1; b2; b3] 0 < 65536) ->
  (contains4 (b0, b1, b2, b3) (a0, a1, a2, a3) = true <->
   forall i, member_of [a0; a1; a2; a3] i -> member_of [b0; b1; b2; b3] i).
Proof.
  intros RA RB. unfold contains4. rewrite !andb_true_iff.
  rewrite (land_sub b0 a0 (RB 0%nat) (RA 0%nat)), (land_sub b1 a1 (RB 1%nat) (RA 1%nat)),
          (land_sub b2 a2 (RB 2%nat) (RA 2%nat)), (land_sub b3 a3 (RB 3%nat) (RA 3%nat)). split.
  - intros (((H0 & H1) & H2) & H3) i [Hi Hm]. split; [exact Hi|].
    assert (E : i / 16 = 0 \/ i / 16 = 1 \/ i / 16 = 2 \/ i / 16 = 3) by lia.
    assert (Hn : 0 <= i mod 16 < 16) by lia.
    destruct E as [E|[E|[E|E]]]; rewrite E in *;
      [change (Z.to_nat 0) with 0%nat in *|change (Z.to_nat 1) with 1%nat in *
      |change (Z.to_nat 2) with 2%nat in *|change (Z.to_nat 3) with 3%nat in *]; cbn [nth] in *; auto.
  - intros H.
    assert (K : forall j, (j < 4)%nat -> forall n, 0 <= n < 16 ->
       Z.testbit (nth j [a0; a1; a2; a3] 0) n = true -> Z.testbit (nth j [b0; b1; b2; b3] 0) n = true).
    { intros j Hj n Hn T. apply members_word; [exact Hj|exact Hn|]. apply H. apply members_word; assumption. }
    split; [split; [split|]|].
    + exact (K 0%nat ltac:(lia)).
    + exact (K 1%nat ltac:(lia)).
    + exact (K 2%nat ltac:(lia)).
    + exact (K 3%nat ltac:(lia)).
Qed.

Lemma set_compare_effect r s a0 a1 a2 a3 b0 b1 b2 b3 :
  0 <= sp s < 65536 -> set_at s 4 [a0; a1; a2; a3] -> set_at s 0 [b0; b1; b2; b3] ->
  exists s', set_compare r s = Ok s' /\
    stack_effect s s' 8 [pbool (r (b0, b1, b2, b3) (a0, a1, a2, a3))] /\ pc s' = pc s.
Proof.
  intros Hs HA HB. destruct (set_at_inv _ _ _ HA) as (? & ? & ? & ? & [= <- <- <- <-] & A0 & A1 & A2 & A3).
  destruct (set_at_inv _ _ _ HB) as (? & ? & ? & ? & [= <- <- <- <-] & B0 & B1 & B2 & B3).
  replace (sp s / 2 - 4 - 3) with (sp s / 2 - 7) in * by lia.
  replace (sp s / 2 - 0 - 3) with (sp s / 2 - 3) in * by lia.
  unfold set_compare. rewrite (rd4_ok _ _ _ _ _ _ B0 B1 B2 B3). cbn [bindo].
  rewrite (rd4_ok _ _ _ _ _ _ A0 A1 A2 A3). cbn [bindo].
  destruct (put_discard s 7 (pbool (r (b0, b1, b2, b3) (a0, a1, a2, a3)))) as (t & -> & F & G);
    [lia|apply pbool_range|exact (rd_is_in _ _ _ A0)|lia|].
  cbn [bindo]. eexists. split; [reflexivity|]. split; [exact F|exact G].
Qed.

Lemma truth_bool b P : (b = true <-> P) -> truth (pbool b) P.
Proof.
  intros H. unfold truth. destruct b.
  - left. split; [apply H; reflexivity|reflexivity].
  - right. split; [intros HP; apply H in HP; discriminate|reflexivity].
Qed.

Lemma set_relations_correct : forall c R s A B x,
  In (c, R) set_relations -> 0 <= sp s < 65536 -> set_at s 4 A -> set_at s 0 B ->
  exists s' r, exec_insn s (mkOp oSETOP c x) = Ok s' /\ stack_effect s s' 8 [r] /\
    truth r (R (member_of A) (member_of B)) /\ pc s' = (pc s + 2) mod 65536.
Proof.
  intros c R s A B x H Hs HA HB.
  pose proof (fun j => set_at_range s 4 A j HA) as RA. pose proof (fun j => set_at_range s 0 B j HB) as RB.
  destruct (set_at_inv _ _ _ HA) as (a0 & a1 & a2 & a3 & -> & _).
  destruct (set_at_inv _ _ _ HB) as (b0 & b1 & b2 & b3 & -> & _).
  assert (K : forall r, (r (b0, b1, b2, b3) (a0, a1, a2, a3) = true <->
      R (member_of [a0; a1; a2; a3]) (member_of [b0; b1; b2; b3])) ->
    exists s' v, set_compare r (with_pc s (u16 (pc s + 2))) = Ok s' /\ stack_effect s s' 8 [v] /\
    truth v (R (member_of [a0; a1; a2; a3]) (member_of [b0; b1; b2; b3])) /\ pc s' = (pc s + 2) mod 65536).
  { intros r Hr. destruct (set_compare_effect r (with_pc s (u16 (pc s + 2))) a0 a1 a2 a3 b0 b1 b2 b3 Hs HA HB) as (s' & E & F & P).
    exists s', (pbool (r (b0, b1, b2, b3) (a0, a1, a2, a3))). split; [exact E|]. split; [exact F|]. split; [|exact P].
    apply truth_bool, Hr. }
  pose proof (sets_eq [a0; a1; a2; a3] [b0; b1; b2; b3] eq_refl eq_refl RA RB) as EQ.
  cbn [In set_relations] in H.
  destruct H as [H|[H|[H|[]]]]; injection H as <- <-.
  - apply (K eq4). rewrite eq4_iff, EQ. tauto.
  - apply (K (fun x y => negb (eq4 x y))). rewrite negb_true_iff, <- EQ.
    destruct (eq4 (b0, b1, b2, b3) (a0, a1, a2, a3)) eqn:E.
    + apply eq4_iff in E. split; [discriminate|]. intros N. exfalso. apply N. exact E.
    + split; [|reflexivity]. intros _ N. rewrite <- eq4_iff in N. congruence.
  - apply (K contains4). apply contains_iff; assumption.
Qed.

(** ** Membership *)

Lemma member_number_eq m base z : member_number m base z -> s16 (s16 m - s16 base) = z.
Proof.
  intros (x & y & Hx & Hy & Hz). rewrite <- (signed16_unique _ _ Hx), <- (signed16_unique _ _ Hy).
  symmetry. apply signed16_unique, Hz.
Qed.

Lemma bit_test w j : 0 <= j < 16 -> negb (Z.land w (Z.shiftl 1 j) =? 0) = Z.testbit w j.
Proof.
  intros Hj. rewrite Z.shiftl_1_l. destruct (Z.testbit w j) eqn:T.
  - destruct (Z.land w (2 ^ j) =? 0) eqn:E; [|reflexivity]. apply Z.eqb_eq in E.
    assert (K : Z.testbit (Z.land w (2 ^ j)) j = false) by (rewrite E; apply Z.testbit_0_l).
    rewrite Z.land_spec, T, Z.pow2_bits_true in K by lia. discriminate.
  - replace (Z.land w (2 ^ j)) with 0; [reflexivity|]. symmetry. apply Z.bits_inj'. intros n Hn.
    rewrite Z.land_spec, Z.testbit_0_l. destruct (Z.eq_dec n j) as [->|N].
    + rewrite T. reflexivity.
    + rewrite Z.pow2_bits_false by lia. apply andb_false_r.
Qed.

(** Word [i/16] of the set at distance [k] *)
Lemma set_word s k ws j : set_at s k ws -> 0 <= j < 4 ->
  rd s (sp s / 2 - k - 3 + j) = Some (nth (Z.to_nat j) ws 0).
Proof.
  intros [L H] Hj. specialize (H (Z.to_nat j) ltac:(lia)). unfold tos in H. rewrite <- H. f_equal. lia.
Qed.

Lemma member_correct : forall s A m base z x,
  0 <= sp s < 65536 -> tos s 0 = Some base -> set_at s 1 A -> tos s 5 = Some m -> member_number m base z -> z <> 64 ->
  (0 <= z < 64 ->
     exists s' r, exec_insn s (mkOp oSETOP nMEMBER x) = Ok s' /\ stack_effect s s' 6 [r] /\
       truth r (member_of A z) /\ pc s' = (pc s + 2) mod 65536) /\
  (~ 0 <= z < 64 -> exists s', exec_insn s (mkOp oSETOP nMEMBER x) = Err eVALUERANGE s').
Proof.
  intros s A m base z x Hs Hb HA Hm Hz N. pose proof (member_number_eq _ _ _ Hz) as E.
  set (s1 := with_pc s (u16 (pc s + 2))).
  change (exec_insn s (mkOp oSETOP nMEMBER x)) with (set_member s1).
  unfold set_member. change (tos s1) with (tos s). rewrite Hb, Hm. cbn [bindo]. rewrite E. split.
  - intros Hr. replace ((z <? 0) || (64 <? z)) with false by lia.
    change (rd s1) with (rd s). change (sp s1) with (sp s).
    replace (sp s / 2 - 4 + z / 16) with (sp s / 2 - 1 - 3 + z / 16) by lia.
    rewrite (set_word _ _ _ (z / 16) HA) by lia. cbn [bindo].
    rewrite bit_test by lia.
    destruct (put_discard s1 5 (pbool (Z.testbit (nth (Z.to_nat (z / 16)) A 0) (z mod 16)))) as (t & -> & F & G);
      [lia|apply pbool_range|exact (proj1 (tos_some _ _ _ Hm))|exact (proj2 Hs)|]. cbn [bindo].
    eexists; eexists; split; [reflexivity|]. split; [exact F|]. split; [|exact G].
    apply truth_bool. symmetry. apply member_of_bit. exact Hr.
  - intros Hr. replace ((z <? 0) || (64 <? z)) with true by lia. eexists; reflexivity.
Qed.

(** Member 64 is not rejected; the answer is the parity of the base. *)
Lemma member_64 : forall s A m base x,
  0 <= sp s < 65536 -> tos s 0 = Some base -> set_at s 1 A -> tos s 5 = Some m -> member_number m base 64 ->
  exists s' r, exec_insn s (mkOp oSETOP nMEMBER x) = Ok s' /\ stack_effect s s' 6 [r] /\ truth r (Z.Odd base).
Proof.
  intros s A m base x Hs Hb HA Hm Hz. pose proof (member_number_eq _ _ _ Hz) as E.
  set (s1 := with_pc s (u16 (pc s + 2))).
  change (exec_insn s (mkOp oSETOP nMEMBER x)) with (set_member s1).
  unfold set_member. change (tos s1) with (tos s). rewrite Hb, Hm. cbn [bindo]. rewrite E.
  change ((64 <? 0) || (64 <? 64)) with false. cbv iota.
  change (rd s1) with (rd s). change (sp s1) with (sp s).
  change (64 / 16) with 4. change (64 mod 16) with 0.
  replace (sp s / 2 - 4 + 4) with (sp s / 2 - 0) by lia. unfold tos in Hb. rewrite Hb. cbn [bindo].
  rewrite bit_test by lia. rewrite Z.bit0_odd.
  destruct (put_discard s1 5 (pbool (Z.odd base))) as (t & -> & F & G);
    [lia|apply pbool_range|exact (proj1 (tos_some _ _ _ Hm))|exact (proj2 Hs)|]. cbn [bindo].
  eexists; eexists; split; [reflexivity|]. split; [exact F|].
  apply truth_bool, Z.odd_spec.
Qed.

(** ** Include and exclude *)

Definition change_word (f : Z -> Z -> Z) (s : st) : outcome :=
  '(m, s) <- pop s ;;
  let member := s16 m in
  let i := sp s / 2 - 3 + u16 (member / 16) in
  w <- rd s i ;;
  ret (wr s i (f w (Z.shiftl 1 (member mod 16)))).

Lemma set_nth_word f ws j r : (j < 4)%nat -> length ws = 4%nat ->
  r = f (nth j ws 0) ->
  exists ws', length ws' = 4%nat /\ nth j ws' 0 = r /\ forall k, k <> j -> nth k ws' 0 = nth k ws 0.
Proof.
  intros Hj L Hr. exists (firstn j ws ++ r :: skipn (S j) ws).
  split; [rewrite app_length; cbn [length]; rewrite firstn_length, skipn_length; lia|].
  split.
  - rewrite app_nth2 by (rewrite firstn_length; lia). rewrite firstn_length.
    replace (j - Nat.min j (length ws))%nat with 0%nat by lia. reflexivity.
  - intros k Hk. destruct (Nat.lt_ge_cases k j) as [C|C].
    + rewrite app_nth1 by (rewrite firstn_length; lia). rewrite <- (firstn_skipn j ws) at 2.
      rewrite app_nth1 by (rewrite firstn_length; lia). reflexivity.
    + rewrite app_nth2 by (rewrite firstn_length; lia). rewrite firstn_length.
      replace (k - Nat.min j (length ws))%nat with (S (k - S j)) by lia. cbn [nth].
      rewrite <- (firstn_skipn (S j) ws) at 2.
      rewrite (app_nth2 (firstn (S j) ws)) by (rewrite firstn_length; lia). rewrite firstn_length.
      f_equal. lia.
Qed.

Lemma change_word_correct f s A m z :
  0 <= sp s < 65536 -> tos s 0 = Some m -> set_at s 1 A -> signed16 m z -> 0 <= z < 64 ->
  exists s' ws, change_word f s = Ok s' /\ stack_effect s s' 5 ws /\ pc s' = pc s /\ length ws = 4%nat /\
    nth (Z.to_nat (z / 16)) ws 0 = u16 (f (nth (Z.to_nat (z / 16)) A 0) (Z.shiftl 1 (z mod 16))) /\
    (forall k, k <> Z.to_nat (z / 16) -> nth k ws 0 = nth k A 0).
Proof.
  intros Hs Hm HA Hz Hr. unfold change_word. rewrite (pop_eq _ _ Hm). cbn [bindo].
  replace (s16 m) with z by (apply signed16_unique, Hz).
  cbv zeta.
  change (u16 (sp s - 2)) with (u16 (sp s - 2 * 1)).
  set (s1 := with_sp s (u16 (sp s - 2 * 1))).
  assert (S2 : 2 <= sp s).
  { destruct (set_at_inv _ _ _ HA) as (? & ? & ? & ? & _ & I & _). apply rd_is_in, in_word_iff in I. lia. }
  assert (Es : sp s1 / 2 - 3 = sp s / 2 - 1 - 3) by (cbn [s1 sp with_sp]; rewrite u16_small by lia; lia).
  rewrite Es. rewrite (u16_small (z / 16)) by lia.
  pose proof (set_word _ _ _ (z / 16) HA ltac:(lia)) as W.
  change (rd s1) with (rd s). rewrite W. cbn [bindo].
  destruct (wr_ex s1 (sp s / 2 - 1 - 3 + z / 16) (f (nth (Z.to_nat (z / 16)) A 0) (Z.shiftl 1 (z mod 16))))
    as (t & -> & ((A1 & A2 & A3 & A4 & A5) & A6 & A7) & R & U); [exact (rd_is_in _ _ _ W)|]. cbn [ret].
  destruct (set_nth_word (fun _ => u16 (f (nth (Z.to_nat (z / 16)) A 0) (Z.shiftl 1 (z mod 16)))) A (Z.to_nat (z / 16)) _
     ltac:(lia) (proj1 HA) eq_refl) as (ws & L & N1 & N2).
  exists t, ws. split; [reflexivity|]. split; [|split; [exact A7|]; split; [exact L|]; split; [exact N1|exact N2]].
  assert (E1 : sp s1 = sp s - 2) by (cbn [s1 sp with_sp]; rewrite u16_small by lia; lia).
  unfold stack_effect, same_regs. rewrite A6, E1, L.
  split; [|split; [lia|]; split].
  - repeat split; assumption.
  - intros k v Hk. assert (Hk4 : (k < 4)%nat) by (rewrite <- L; apply nth_error_Some; congruence).
    apply nth_error_nth with (d := 0) in Hk. subst v.
    destruct (Nat.eq_dec k (Z.to_nat (z / 16))) as [->|D].
    + rewrite N1, <- R. f_equal. lia.
    + rewrite N2 by exact D. rewrite U by lia. change (rd s1) with (rd s).
      rewrite <- (Nat2Z.id k). rewrite <- (set_word _ _ _ (Z.of_nat k) HA) by lia. f_equal. lia.
  - intros i Hi. rewrite U by lia. reflexivity.
Qed.

Lemma include_correct : forall s A m z x,
  0 <= sp s < 65536 -> tos s 0 = Some m -> set_at s 1 A -> signed16 m z -> 0 <= z < 64 ->
  exists s' ws, exec_insn s (mkOp oSETOP nINCLUDE x) = Ok s' /\ stack_effect s s' 5 ws /\
    represents ws (fun i => member_of A i \/ i = z) /\ pc s' = (pc s + 2) mod 65536.
Proof.
  intros s A m z x Hs Hm HA Hz Hr.
  destruct (change_word_correct Z.lor (with_pc s (u16 (pc s + 2))) A m z Hs Hm HA Hz Hr)
    as (s' & ws & E & F & P & L & N1 & N2).
  exists s', ws. split; [exact E|]. split; [exact F|]. split; [|exact P]. split; [exact L|].
  intros i Hi. rewrite !member_of_bit by exact Hi.
  destruct (Nat.eq_dec (Z.to_nat (i / 16)) (Z.to_nat (z / 16))) as [D|D].
  - rewrite D, N1, testbit_u16, Z.lor_spec, Z.shiftl_1_l by lia.
    destruct (Z.eq_dec (i mod 16) (z mod 16)) as [M|M].
    + rewrite M, Z.pow2_bits_true by lia. rewrite orb_true_r. split; [|reflexivity]. intros _. right. lia.
    + rewrite Z.pow2_bits_false, orb_false_r by lia. split; [auto|]. intros [T|T]; [exact T|]. subst i. lia.
  - rewrite N2 by exact D. split; [auto|]. intros [T|T]; [exact T|]. subst i. lia.
Qed.

Lemma exclude_correct : forall s A m z x,
  0 <= sp s < 65536 -> tos s 0 = Some m -> set_at s 1 A -> signed16 m z -> 0 <= z < 64 ->
  exists s' ws, exec_insn s (mkOp oSETOP nEXCLUDE x) = Ok s' /\ stack_effect s s' 5 ws /\
    represents ws (fun i => member_of A i /\ i <> z) /\ pc s' = (pc s + 2) mod 65536.
Proof.
  intros s A m z x Hs Hm HA Hz Hr.
  destruct (change_word_correct (fun w b => Z.land w (Z.lnot b)) (with_pc s (u16 (pc s + 2))) A m z Hs Hm HA Hz Hr)
    as (s' & ws & E & F & P & L & N1 & N2).
  exists s', ws. split; [exact E|]. split; [exact F|]. split; [|exact P]. split; [exact L|].
  intros i Hi. rewrite !member_of_bit by exact Hi.
  destruct (Nat.eq_dec (Z.to_nat (i / 16)) (Z.to_nat (z / 16))) as [D|D].
  - rewrite D, N1, testbit_u16, Z.land_spec, Z.lnot_spec, Z.shiftl_1_l by lia.
    destruct (Z.eq_dec (i mod 16) (z mod 16)) as [M|M].
    + rewrite M, Z.pow2_bits_true by lia. rewrite andb_false_r. split; [discriminate|]. intros [_ T]. exfalso. lia.
    + rewrite Z.pow2_bits_false, andb_true_r by lia. split; [|tauto]. intros T. split; [exact T|]. intros ->. lia.
  - rewrite N2 by exact D. split; [|tauto]. intros T. split; [exact T|]. intros ->. lia.
Qed.

(** ** Cardinality *)

Definition bit_count (w : Z) (n : nat) : Z :=
  fold_right (fun i a => Z.b2z (Z.testbit w (Z.of_nat i)) + a) 0 (seq 0 n).

Lemma bits_in_byte_all :
  forallb (fun b => bits_in_byte (Z.of_nat b) =? bit_count (Z.of_nat b) 8) (seq 0 256) = true.
Proof. vm_compute. reflexivity. Qed.

Lemma bits_in_byte_count b : 0 <= b < 256 -> bits_in_byte b = bit_count b 8.
Proof.
  intros H. pose proof bits_in_byte_all as F. rewrite forallb_forall in F.
  specialize (F (Z.to_nat b)). rewrite Z2Nat.id in F by lia. apply Z.eqb_eq, F. apply in_seq. lia.
Qed.

Lemma bits_in_word_count w : 0 <= w < 65536 -> bits_in_word w = bit_count w 16.
Proof.
  intros H. unfold bits_in_word. rewrite !bits_in_byte_count by lia.
  assert (L : forall i, 0 <= i < 8 -> Z.testbit (w mod 256) i = Z.testbit w i).
  { intros i Hi. change 256 with (2 ^ 8). apply Z.mod_pow2_bits_low. lia. }
  assert (U : forall i, 0 <= i -> Z.testbit (w / 256) i = Z.testbit w (i + 8)).
  { intros i Hi. change 256 with (2 ^ 8). rewrite <- Z.shiftr_div_pow2 by lia. apply Z.shiftr_spec. lia. }
  unfold bit_count. cbn [seq fold_right].
  rewrite !L, !U by lia. change (Z.of_nat ?a + 8) with (Z.of_nat (a + 8)). cbn [Nat.add].
  change (Z.of_nat 0 + 8) with (Z.of_nat 8). change (Z.of_nat 1 + 8) with (Z.of_nat 9).
  change (Z.of_nat 2 + 8) with (Z.of_nat 10). change (Z.of_nat 3 + 8) with (Z.of_nat 11).
  change (Z.of_nat 4 + 8) with (Z.of_nat 12). change (Z.of_nat 5 + 8) with (Z.of_nat 13).
  change (Z.of_nat 6 + 8) with (Z.of_nat 14). change (Z.of_nat 7 + 8) with (Z.of_nat 15).
  ring.
Qed.

Definition elements : list Z := map Z.of_nat (seq 0 64).
Definition has (ws : list Z) (i : Z) : bool := Z.testbit (nth (Z.to_nat (i / 16)) ws 0) (i mod 16).

Lemma filter_count (p : Z -> bool) l :
  Z.of_nat (length (filter p l)) = fold_right (fun i a => Z.b2z (p i) + a) 0 l.
Proof.
  induction l as [|i l IH]; [reflexivity|]. cbn [filter fold_right]. rewrite <- IH.
  destruct (p i); cbn [length Z.b2z]; lia.
Qed.

Lemma elements_nodup : NoDup elements.
Proof.
  unfold elements. apply FinFun.Injective_map_NoDup; [|apply seq_NoDup].
  intros x y. lia.
Qed.

Lemma in_elements i : In i elements <-> 0 <= i < 64.
Proof.
  unfold elements. rewrite in_map_iff. split.
  - intros (n & <- & H). apply in_seq in H. lia.
  - intros H. exists (Z.to_nat i). rewrite in_seq. lia.
Qed.

Lemma set_size a b c d l : NoDup l -> (forall i, In i l <-> member_of [a; b; c; d] i) ->
  Z.of_nat (length l) = bit_count a 16 + bit_count b 16 + bit_count c 16 + bit_count d 16.
Proof.
  intros N H.
  assert (P : Permutation l (filter (has [a; b; c; d]) elements)).
  { apply NoDup_Permutation; [exact N|apply NoDup_filter, elements_nodup|].
    intros i. rewrite H, filter_In, in_elements. reflexivity. }
  apply Permutation_length in P. rewrite P, filter_count.
  unfold elements, has, bit_count. cbn [seq map fold_right].
  repeat match goal with |- context [Z.to_nat (?i / 16)] =>
    let v := eval vm_compute in (Z.to_nat (i / 16)) in change (Z.to_nat (i / 16)) with v end.
  cbn [nth].
  repeat match goal with |- context [Z.of_nat ?i mod 16] =>
    let v := eval vm_compute in (Z.of_nat i mod 16) in change (Z.of_nat i mod 16) with v end.
  repeat match goal with |- context [Z.of_nat ?i] =>
    let v := eval vm_compute in (Z.of_nat i) in change (Z.of_nat i) with v end.
  ring.
Qed.

Lemma card_correct : forall s A l x,
  0 <= sp s < 65536 -> set_at s 0 A -> NoDup l -> (forall i, In i l <-> member_of A i) ->
  exists s', exec_insn s (mkOp oSETOP nCARD x) = Ok s' /\ stack_effect s s' 4 [Z.of_nat (length l)] /\
    pc s' = (pc s + 2) mod 65536.
Proof.
  intros s A l x Hs HA N H.
  pose proof (fun j => set_at_range s 0 A j HA) as RA.
  destruct (set_at_inv _ _ _ HA) as (a & b & c & d & -> & A0 & A1 & A2 & A3).
  replace (sp s / 2 - 0 - 3) with (sp s / 2 - 3) in * by lia.
  pose proof (set_size a b c d l N H) as C.
  set (s1 := with_pc s (u16 (pc s + 2))).
  change (exec_insn s (mkOp oSETOP nCARD x)) with (set_card s1). unfold set_card.
  change (sp s1) with (sp s).
  rewrite (rd4_ok s1 (sp s / 2 - 3) a b c d A0 A1 A2 A3). cbn [bindo].
  rewrite (bits_in_word_count a (RA 0%nat)), (bits_in_word_count b (RA 1%nat)),
          (bits_in_word_count c (RA 2%nat)), (bits_in_word_count d (RA 3%nat)). rewrite <- C.
  assert (L : (length l <= 64)%nat).
  { change (length l <= length elements)%nat.
    apply NoDup_incl_length; [exact N|]. intros i Hi. apply in_elements. apply H in Hi. apply Hi. }
  destruct (put_discard s1 3 (Z.of_nat (length l))) as (t & -> & F & G);
    [lia|lia|exact (rd_is_in _ _ _ A0)|exact (proj2 Hs)|]. cbn [bindo].
  eexists. split; [reflexivity|]. split; [exact F|exact G].
Qed.

(** ** Constructors *)

(** The state from which the constructors write: [k] operands popped, four
    words added. *)
Lemma pops_room s k : 0 <= k <= 4 -> 2 * k <= sp s -> room s (4 - k) ->
  let t := with_sp s (sp s - 2 * k + 8) in
  in_word t (sp t / 2 - 3) = true /\ in_word t (sp t / 2 - 3 + 3) = true.
Proof.
  intros Hk H2 (R0 & R1 & R2 & R3). cbv zeta. cbn [sp with_sp]. rewrite !in_word_iff. cbn [cf with_sp]. lia.
Qed.

Lemma written_effect s t k ws : 2 * k <= sp s ->
  four_written (with_sp s (sp s - 2 * k + 8)) t (sp s / 2 - k + 1) ws -> stack_effect s t k ws.
Proof.
  intros Hk (((A1 & A2 & A3 & A4 & A5) & A6 & A7) & L & R & U).
  cbn [sp with_sp] in *. unfold stack_effect, same_regs. rewrite L. repeat split; try assumption; try lia.
  intros i Hi. rewrite U by lia. reflexivity.
Qed.

(** Changing one of four words *)
Lemma four_change s t i ws j v : four_written s t i ws -> (j < 4)%nat ->
  in_word s (i + Z.of_nat j) = true ->
  exists t' ws', wr t (i + Z.of_nat j) v = Some t' /\ four_written s t' i ws' /\
    nth j ws' 0 = u16 v /\ forall k, k <> j -> nth k ws' 0 = nth k ws 0.
Proof.
  intros (S0 & L & R & U) Hj I.
  destruct (wr_ex t (i + Z.of_nat j) v) as (t' & E & S1 & R1 & U1); [rewrite (sbm_in _ _ _ S0); exact I|].
  destruct (set_nth_word (fun _ => u16 v) ws j _ Hj L eq_refl) as (ws' & L' & N1 & N2).
  exists t', ws'. split; [exact E|]. split; [|split; [exact N1|exact N2]].
  split; [eapply sbm_trans; eassumption|]. split; [exact L'|]. split.
  - intros k w Hk. assert (Hk4 : (k < 4)%nat) by (rewrite <- L'; apply nth_error_Some; congruence).
    apply nth_error_nth with (d := 0) in Hk. subst w. destruct (Nat.eq_dec k j) as [->|D].
    + rewrite N1. exact R1.
    + rewrite N2 by exact D. rewrite U1 by lia. apply R.
      rewrite (nth_error_nth' ws 0); [reflexivity|lia].
  - intros k Hk. rewrite U1 by lia. apply U. exact Hk.
Qed.

Lemma empty_correct : forall s x, room s 4 ->
  exists s' ws, exec_insn s (mkOp oSETOP nEMPTY x) = Ok s' /\ stack_effect s s' 0 ws /\
    represents ws (fun _ => False) /\ pc s' = (pc s + 2) mod 65536.
Proof.
  intros s x R. set (s1 := with_pc s (u16 (pc s + 2))).
  change (exec_insn s (mkOp oSETOP nEMPTY x)) with (set_empty s1). unfold set_empty.
  assert (R1 : room s1 1) by (unfold room in *; cbn [s1 sp cf with_pc]; lia).
  destruct (push_eff s1 0 R1 ltac:(lia)) as (t1 & -> & F1 & G1). cbn [bindo].
  assert (Q : forall u, stack_effect s1 u 0 [0; 0; 0; 0] /\ pc u = pc s1 ->
    exists s' ws, Ok u = Ok s' /\ stack_effect s s' 0 ws /\
    represents ws (fun _ => False) /\ pc s' = (pc s + 2) mod 65536).
  { intros u [Fu Gu]. exists u, [0; 0; 0; 0]. split; [reflexivity|]. split; [exact Fu|]. split; [|exact Gu].
    split; [reflexivity|]. intros i Hi. rewrite member_of_bit by exact Hi.
    replace (nth (Z.to_nat (i / 16)) [0; 0; 0; 0] 0) with 0 by (destruct (Z.to_nat (i / 16)) as [|[|[|[|[|]]]]]; reflexivity).
    rewrite Z.testbit_0_l. split; [discriminate|tauto]. }
  assert (E1 : sp t1 = sp s1 + 2) by (destruct F1 as (_ & E & _); cbn [length] in E; lia).
  assert (C1 : cf t1 = cf s1) by (destruct F1 as ((E & _) & _); exact E).
  assert (R2 : room t1 1) by (unfold room in *; rewrite E1, C1; cbn [s1 sp cf with_pc] in *; lia).
  destruct (push_eff t1 0 R2 ltac:(lia)) as (t2 & -> & F2 & G2). cbn [bindo].
  assert (E2 : sp t2 = sp s1 + 4) by (destruct F2 as (_ & E & _); cbn [length] in E; lia).
  assert (C2 : cf t2 = cf s1) by (destruct F2 as ((E & _) & _); congruence).
  assert (R3 : room t2 1) by (unfold room in *; rewrite E2, C2; cbn [s1 sp cf with_pc] in *; lia).
  destruct (push_eff t2 0 R3 ltac:(lia)) as (t3 & -> & F3 & G3). cbn [bindo].
  assert (E3 : sp t3 = sp s1 + 6) by (destruct F3 as (_ & E & _); cbn [length] in E; lia).
  assert (C3 : cf t3 = cf s1) by (destruct F3 as ((E & _) & _); congruence).
  assert (R4 : room t3 1) by (unfold room in *; rewrite E3, C3; cbn [s1 sp cf with_pc] in *; lia).
  destruct (push_eff t3 0 R4 ltac:(lia)) as (t4 & -> & F4 & G4). cbn [ret].
  apply Q. split; [|congruence]. 
  assert (T : forall s t u l1 v, stack_effect s t 0 l1 -> stack_effect t u 0 [v] -> stack_effect s u 0 (l1 ++ [v])).
  { clear. intros s t u l1 v ((A1 & A2 & A3 & A4 & A5) & A6 & A7 & A8) ((B1 & B2 & B3 & B4 & B5) & B6 & B7 & B8).
    cbn [length] in *. unfold stack_effect, same_regs. rewrite app_length. cbn [length].
    repeat split; try congruence; try lia.
    - intros k w Hk. destruct (Nat.lt_ge_cases k (length l1)) as [C|C].
      + rewrite nth_error_app1 in Hk by exact C. rewrite <- (A7 k w Hk). apply B8. lia.
      + rewrite nth_error_app2 in Hk by exact C. destruct (k - length l1)%nat as [|n] eqn:D; [|destruct n; discriminate].
        cbn [nth_error] in Hk. injection Hk as <-. rewrite <- (B7 0%nat v eq_refl). f_equal. lia.
    - intros i Hi. rewrite B8 by lia. apply A8. lia. }
  exact (T _ _ _ [0; 0; 0] 0 (T _ _ _ [0; 0] 0 (T _ _ _ [0] 0 F1 F2) F3) F4).
Qed.

Lemma zero_words i : nth i [0; 0; 0; 0] 0 = 0.
Proof. destruct i as [|[|[|[|[|]]]]]; reflexivity. Qed.

Lemma singleton_correct : forall s m base z x,
  room s 2 -> 4 <= sp s -> tos s 0 = Some base -> tos s 1 = Some m -> member_number m base z ->
  (0 <= z < 64 ->
     exists s' ws, exec_insn s (mkOp oSETOP nSINGLETON x) = Ok s' /\ stack_effect s s' 2 ws /\
       represents ws (fun i => i = z) /\ pc s' = (pc s + 2) mod 65536) /\
  (~ 0 <= z < 64 -> exists s', exec_insn s (mkOp oSETOP nSINGLETON x) = Err eVALUERANGE s').
Proof.
  intros s m base z x Rm H4 Hb Hm Hz. pose proof (member_number_eq _ _ _ Hz) as E.
  set (s1 := with_pc s (u16 (pc s + 2))).
  change (exec_insn s (mkOp oSETOP nSINGLETON x)) with (set_singleton s1).
  assert (Hs : 0 <= sp s < 65536) by (unfold room in Rm; lia).
  unfold set_singleton. rewrite (pop_eq s1 base Hb). cbn [bindo].
  change (u16 (sp s1 - 2)) with (u16 (sp s1 - 2 * 1)).
  assert (Hm' : tos (with_sp s1 (u16 (sp s1 - 2 * 1))) 0 = Some m).
  { apply tos_with_sp; [exact Hm|lia|lia|exact (proj2 Hs)|exact (proj1 Hs)]. }
  rewrite (pop_eq _ _ Hm'). cbn [bindo]. cbv zeta.
  set (t := with_sp _ (u16 (_ + 8))).
  assert (Et : t = with_sp s1 (sp s1 - 2 * 2 + 8)).
  { subst t. unfold with_sp. cbn [mem cf sp csp fp pc lsp fch]. f_equal. unfold room in Rm. cbn [s1 sp with_pc]. unfold u16. lia. }
  rewrite Et. destruct (pops_room s1 2 ltac:(lia) H4 Rm) as [I0 I3].
  assert (Es : sp (with_sp s1 (sp s1 - 2 * 2 + 8)) / 2 - 3 = sp s1 / 2 - 2 + 1) by (cbn [sp with_sp]; lia).
  rewrite Es in *.
  destruct (zero4_ok _ _ I0 I3) as (u & -> & Fu). cbn [bindo]. rewrite E. split.
  - intros Hr. replace ((z <? 0) || (64 <=? z)) with false by lia.
    pose proof Fu as (S0 & _ & R & U).
    assert (R0 : nth_error [0; 0; 0; 0] (Z.to_nat (z / 16)) = Some 0)
      by (destruct (Z.to_nat (z / 16)) as [|[|[|[|]]]] eqn:N; try reflexivity; lia).
    apply R in R0. rewrite Z2Nat.id in R0 by lia. rewrite R0. cbn [bindo].
    destruct (four_change _ u _ _ (Z.to_nat (z / 16)) (Z.lor 0 (Z.shiftl 1 (z mod 16))) Fu ltac:(lia)) as (w & ws & W & Fw & N1 & N2).
    { rewrite in_word_iff in *. lia. }
    rewrite Z2Nat.id in W by lia. rewrite W. cbn [ret]. exists w, ws. split; [reflexivity|].
    split; [exact (written_effect s1 w 2 ws H4 Fw)|].
    split; [|destruct Fw as ((_ & _ & P) & _); exact P].
    split; [exact (proj1 (proj2 Fw))|]. intros i Hi. rewrite member_of_bit by exact Hi.
    destruct (Nat.eq_dec (Z.to_nat (i / 16)) (Z.to_nat (z / 16))) as [D|D].
    + rewrite D, N1, testbit_u16, Z.lor_spec, Z.testbit_0_l, Z.shiftl_1_l by lia. cbn [orb].
      destruct (Z.eq_dec (i mod 16) (z mod 16)) as [M|M].
      * rewrite M, Z.pow2_bits_true by lia. split; [|reflexivity]. intros _. lia.
      * rewrite Z.pow2_bits_false by lia. split; [discriminate|]. intros ->. lia.
    + rewrite N2 by exact D. rewrite zero_words, Z.testbit_0_l. split; [discriminate|]. intros ->. lia.
  - intros Hr. replace ((z <? 0) || (64 <=? z)) with true by lia. eexists; reflexivity.
Qed.

(** ** Subranges: the words written by the loop, for all pairs of ends *)

Fixpoint sub_writes (n : nat) (wi mask biw nBits tb tm : Z) : option (list (Z * Z)) :=
  if 0 <? nBits then
    match n with
    | O => None
    | S n' =>
      let nBits := nBits - biw in
      match (if 16 <=? nBits then sub_writes n' (wi + 1) 0xffff 16 nBits tb tm
             else if 0 <? nBits then sub_writes n' (wi + 1) tm biw tb tb tm
             else sub_writes n' (wi + 1) mask biw nBits tb tm) with
      | Some l => Some ((wi, mask) :: l)
      | None => None
      end
    end
  else Some [].

Fixpoint do_writes (s : st) (d : Z) (l : list (Z * Z)) : outcome :=
  match l with
  | [] => Ok s
  | (i, v) :: l => s <- wr s (d + i) v ;; do_writes s d l
  end.

Lemma subrange_writes n : forall m s d wi mask biw nBits tb tm l, (n <= m)%nat ->
  sub_writes n wi mask biw nBits tb tm = Some l ->
  subrange_loop m s d wi mask biw nBits tb tm = do_writes s d l.
Proof.
  induction n as [|n IH]; intros m s d wi mask biw nBits tb tm l Hm H; cbn [sub_writes] in H.
  - destruct m; cbn [subrange_loop]; destruct (0 <? nBits); try discriminate; injection H as <-; reflexivity.
  - destruct m as [|m]; [lia|]. cbn [subrange_loop]. destruct (0 <? nBits); [|injection H as <-; reflexivity].
    destruct (16 <=? nBits - biw) eqn:C1; [|destruct (0 <? nBits - biw) eqn:C2];
      match type of H with context [sub_writes n ?a ?b ?c ?e ?f ?g] => destruct (sub_writes n a b c e f g) as [l'|] eqn:E end;
      try discriminate; injection H as <-; cbn [do_writes];
      destruct (wr s (d + wi) mask) as [t|]; cbn [bindo]; try reflexivity; apply IH; try lia; exact E.
Qed.

(** The words of the set after the writes [l] *)
Definition put (ws : list Z) (iv : Z * Z) : list Z :=
  firstn (Z.to_nat (fst iv)) ws ++ snd iv :: skipn (S (Z.to_nat (fst iv))) ws.

Definition sub_list (a b : Z) : option (list (Z * Z)) :=
  let lead := u16 (Z.shiftl 0xffff (a mod 16)) in
  let tail := u16 (Z.shiftr 0xffff (15 - b mod 16)) in
  if a / 16 =? b / 16 then Some [(a / 16, Z.land lead tail)]
  else sub_writes 5 (a / 16) lead (16 - a) (b - a + 1) (b mod 16 + 1) tail.

Definition sub_ok (a b : Z) : bool := (a / 16 =? b / 16) || ((a <? 16) && ((31 <=? b) || (b mod 16 + 1 <=? 16 - a))).

(** What the writes do to an empty set is checked for all pairs. *)
Definition sub_check (a b : Z) : bool :=
  implb (sub_ok a b && (a <=? b))
    (match sub_list a b with
     | Some l =>
       forallb (fun iv => (0 <=? fst iv) && (fst iv <? 4) && (0 <=? snd iv) && (snd iv <? 65536)) l &&
       forallb (fun i => Bool.eqb (has (fold_left put l [0; 0; 0; 0]) i) ((a <=? i) && (i <=? b))) elements
     | None => false
     end).

Lemma sub_check_all : forallb (fun a => forallb (sub_check a) elements) elements = true.
Proof. vm_compute. reflexivity. Qed.

Lemma sub_checked a b : 0 <= a < 64 -> 0 <= b < 64 -> sub_check a b = true.
Proof.
  intros Ha Hb. pose proof sub_check_all as F. rewrite forallb_forall in F.
  specialize (F a (proj2 (in_elements a) Ha)). rewrite forallb_forall in F. apply F, in_elements, Hb.
Qed.

Lemma put_nth ws j v : length ws = 4%nat -> (j < 4)%nat -> 
  length (put ws (Z.of_nat j, v)) = 4%nat /\ nth j (put ws (Z.of_nat j, v)) 0 = v /\
  forall k, k <> j -> nth k (put ws (Z.of_nat j, v)) 0 = nth k ws 0.
Proof.
  intros L Hj. unfold put. cbn [fst snd]. rewrite Nat2Z.id.
  destruct ws as [|a [|b [|c [|d [|]]]]]; try discriminate L.
  destruct j as [|[|[|[|]]]]; try lia; cbn [firstn skipn app length nth]; (split; [reflexivity|]; split; [reflexivity|]);
    intros [|[|[|[|k]]]] Hk; try reflexivity; lia.
Qed.

Lemma do_writes_four s d l : forall t ws, four_written s t d ws ->
  in_word s d = true -> in_word s (d + 3) = true ->
  (forall iv, In iv l -> 0 <= fst iv < 4 /\ 0 <= snd iv < 65536) ->
  exists u, do_writes t d l = Ok u /\ four_written s u d (fold_left put l ws).
Proof.
  induction l as [|[i v] l IH]; intros t ws F I0 I3 Hl.
  - exists t. auto.
  - cbn [do_writes fold_left].
    destruct (Hl (i, v) (or_introl eq_refl)) as [Hi Hv]. cbn [fst snd] in *.
    assert (E : i = Z.of_nat (Z.to_nat i)) by lia. 
    destruct (four_change s t d ws (Z.to_nat i) v F ltac:(lia)) as (t' & ws' & W & F' & N1 & N2).
    { rewrite in_word_iff in *. lia. }
    rewrite <- E in W. rewrite W. cbn [bindo].
    pose proof (put_nth ws (Z.to_nat i) v (proj1 (proj2 F)) ltac:(lia)) as (P0 & P1 & P2). rewrite <- E in P0, P1, P2.
    assert (X : ws' = put ws (i, v)).
    { apply nth_ext with (d := 0) (d' := 0); [rewrite P0; apply F'|]. intros k Hk.
      destruct (Nat.eq_dec k (Z.to_nat i)) as [->|D].
      - rewrite P1, N1. apply u16_small. lia.
      - rewrite P2, N2 by exact D. reflexivity. }
    rewrite <- X. apply IH; [exact F'|exact I0|exact I3|]. intros iv Hiv. apply Hl. right. exact Hiv.
Qed.

Lemma fold_put_length l : forall ws, length ws = 4%nat -> (forall iv, In iv l -> 0 <= fst iv < 4) ->
  length (fold_left put l ws) = 4%nat.
Proof.
  induction l as [|[i v] l IH]; intros ws L H; [exact L|]. cbn [fold_left]. apply IH.
  - specialize (H (i, v) (or_introl eq_refl)). cbn [fst] in H.
    pose proof (put_nth ws (Z.to_nat i) v L ltac:(lia)) as (P0 & _). rewrite Z2Nat.id in P0 by lia. exact P0.
  - intros iv Hiv. apply H. right. exact Hiv.
Qed.

Lemma subrange_tail s d t a b l ws : four_written s t d ws -> sub_list a b = Some l ->
  (if a / 16 =? b / 16
   then ret (wr t (d + a / 16) (Z.land (u16 (Z.shiftl 0xffff (a mod 16))) (u16 (Z.shiftr 0xffff (15 - b mod 16)))))
   else subrange_loop subrange_bound t d (a / 16) (u16 (Z.shiftl 0xffff (a mod 16))) (16 - a)
          (b - a + 1) (b mod 16 + 1) (u16 (Z.shiftr 0xffff (15 - b mod 16)))) = do_writes t d l.
Proof.
  intros F H. unfold sub_list in H. cbv zeta in H. destruct (a / 16 =? b / 16).
  - injection H as <-. cbn [do_writes]. destruct (wr t _ _); reflexivity.
  - apply subrange_writes with (n := 5%nat); [|exact H].
    unfold subrange_bound. change 5%nat with (Z.to_nat 5). lia.
Qed.

Lemma subrange_start s m1 m2 base a b x : room s 1 -> 6 <= sp s ->
  tos s 0 = Some base -> tos s 1 = Some m2 -> tos s 2 = Some m1 ->
  member_number m1 base a -> member_number m2 base b ->
  exists t d, d = sp s / 2 - 3 + 1 /\
    in_word (with_sp (with_pc s (u16 (pc s + 2))) (sp s - 2 * 3 + 8)) d = true /\
    in_word (with_sp (with_pc s (u16 (pc s + 2))) (sp s - 2 * 3 + 8)) (d + 3) = true /\
    four_written (with_sp (with_pc s (u16 (pc s + 2))) (sp s - 2 * 3 + 8)) t d [0; 0; 0; 0] /\
    exec_insn s (mkOp oSETOP nSUBRANGE x) =
      if (b <? 0) || (64 <=? b) then Err eVALUERANGE t else
      if (a <? 0) || (b <? a) then Err eVALUERANGE t else
      if a / 16 =? b / 16
      then ret (wr t (d + a / 16) (Z.land (u16 (Z.shiftl 0xffff (a mod 16))) (u16 (Z.shiftr 0xffff (15 - b mod 16)))))
      else subrange_loop subrange_bound t d (a / 16) (u16 (Z.shiftl 0xffff (a mod 16))) (16 - a)
             (b - a + 1) (b mod 16 + 1) (u16 (Z.shiftr 0xffff (15 - b mod 16))).
Proof.
  intros Rm H6 Hb H2 H1 Ha Hb2.
  pose proof (member_number_eq _ _ _ Ha) as Ea. pose proof (member_number_eq _ _ _ Hb2) as Eb.
  set (s1 := with_pc s (u16 (pc s + 2))).
  change (exec_insn s (mkOp oSETOP nSUBRANGE x)) with (set_subrange s1).
  assert (Hs : 0 <= sp s < 65536) by (unfold room in Rm; lia).
  unfold set_subrange. rewrite (pop_eq s1 base Hb). cbn [bindo].
  change (u16 (sp s1 - 2)) with (u16 (sp s1 - 2 * 1)).
  assert (H2' : tos (with_sp s1 (u16 (sp s1 - 2 * 1))) 0 = Some m2).
  { apply tos_with_sp; [exact H2|lia|lia|exact (proj2 Hs)|exact (proj1 Hs)]. }
  rewrite (pop_eq _ _ H2'). cbn [bindo].
  set (s2 := with_sp (with_sp s1 (u16 (sp s1 - 2 * 1))) _).
  assert (E2 : s2 = with_sp s1 (u16 (sp s1 - 2 * 2))).
  { subst s2. unfold with_sp. cbn [mem cf sp csp fp pc lsp fch]. f_equal. cbn [s1 sp with_pc]. unfold u16. lia. }
  rewrite E2.
  assert (H1' : tos (with_sp s1 (u16 (sp s1 - 2 * 2))) 0 = Some m1).
  { apply tos_with_sp; [exact H1|lia|lia|exact (proj2 Hs)|exact (proj1 Hs)]. }
  rewrite (pop_eq _ _ H1'). cbn [bindo]. cbv zeta.
  set (t := with_sp _ (u16 (_ + 8))).
  assert (Et : t = with_sp s1 (sp s1 - 2 * 3 + 8)).
  { subst t. unfold with_sp. cbn [mem cf sp csp fp pc lsp fch]. f_equal. unfold room in Rm. cbn [s1 sp with_pc]. unfold u16. lia. }
  rewrite Et. destruct (pops_room s1 3 ltac:(lia) H6 Rm) as [I0 I3].
  assert (Es : sp (with_sp s1 (sp s1 - 2 * 3 + 8)) / 2 - 3 = sp s1 / 2 - 3 + 1) by (cbn [sp with_sp]; lia).
  rewrite Es in *.
  destruct (zero4_ok _ _ I0 I3) as (u & -> & Fu). cbn [bindo].
  exists u, (sp s1 / 2 - 3 + 1). split; [reflexivity|]. split; [exact I0|]. split; [exact I3|]. split; [exact Fu|].
  rewrite Ea, Eb. reflexivity.
Qed.

Lemma subrange_correct : forall s m1 m2 base a b x,
  room s 1 -> 6 <= sp s -> tos s 0 = Some base -> tos s 1 = Some m2 -> tos s 2 = Some m1 ->
  member_number m1 base a -> member_number m2 base b ->
  (0 <= a -> a <= b -> b < 64 -> subrange_ok a b ->
     exists s' ws, exec_insn s (mkOp oSETOP nSUBRANGE x) = Ok s' /\ stack_effect s s' 3 ws /\
       represents ws (fun i => a <= i <= b) /\ pc s' = (pc s + 2) mod 65536) /\
  (~ (0 <= a /\ a <= b /\ b < 64) -> exists s', exec_insn s (mkOp oSETOP nSUBRANGE x) = Err eVALUERANGE s').
Proof.
  intros s m1 m2 base a b x Rm H6 Hb H2 H1 Ha Hb2.
  destruct (subrange_start s m1 m2 base a b x Rm H6 Hb H2 H1 Ha Hb2) as (t & d & Ed & I0 & I3 & F & ->). split.
  - intros La Lab Lb OK. replace ((b <? 0) || (64 <=? b)) with false by lia.
    replace ((a <? 0) || (b <? a)) with false by lia.
    pose proof (sub_checked a b ltac:(lia) ltac:(lia)) as C. unfold sub_check in C.
    replace (sub_ok a b && (a <=? b)) with true in C by (unfold sub_ok, subrange_ok in *; lia). cbn [implb] in C.
    destruct (sub_list a b) as [l|] eqn:El; [|discriminate].
    apply andb_true_iff in C. destruct C as [C1 C2]. rewrite forallb_forall in C1, C2.
    rewrite (subrange_tail _ d t a b l _ F El).
    assert (Hl : forall iv, In iv l -> 0 <= fst iv < 4 /\ 0 <= snd iv < 65536).
    { intros iv Hiv. specialize (C1 iv Hiv). lia. }
    destruct (do_writes_four _ d l t _ F I0 I3 Hl) as (u & -> & Fu).
    exists u, (fold_left put l [0; 0; 0; 0]). split; [reflexivity|].
    split; [rewrite Ed in Fu; exact (written_effect (with_pc s (u16 (pc s + 2))) u 3 _ H6 Fu)|].
    split; [|destruct Fu as ((_ & _ & P) & _); exact P].
    split; [apply Fu|]. intros i Hi. rewrite member_of_bit by exact Hi.
    specialize (C2 i (proj2 (in_elements i) Hi)). apply eqb_prop in C2. unfold has in C2. rewrite C2. lia.
  - intros N. destruct ((b <? 0) || (64 <=? b)) eqn:E1; [eexists; reflexivity|].
    replace ((a <? 0) || (b <? a)) with true by lia. eexists; reflexivity.
Qed.

(** When the bits of the tail exceed those counted per word the loop never
    ends but leaves the memory. *)
Lemma subrange_runs_away n : forall s d wi mask biw tb tm,
  0 < tb < 17 -> 0 < biw < tb -> c_ssz (cf s) / 2 < d + wi + Z.of_nat n ->
  0 < Z.of_nat n -> subrange_loop n s d wi mask biw tb tb tm = UB.
Proof.
  induction n as [|n IH]; intros s d wi mask biw tb tm Ht Hb Hn H0; [lia|].
  cbn [subrange_loop]. replace (0 <? tb) with true by lia.
  destruct (wr s (d + wi) mask) as [t|] eqn:W; [|reflexivity]. cbn [bindo]. cbv zeta.
  replace (16 <=? tb - biw) with false by lia. replace (0 <? tb - biw) with true by lia.
  apply wr_some in W. destruct W as [I ->]. apply in_word_iff in I.
  apply IH; [exact Ht|exact Hb| |]; cbn [cf with_mem]; lia.
Qed.

Lemma subrange_ub : forall s m1 m2 base a b x,
  room s 1 -> 6 <= sp s -> tos s 0 = Some base -> tos s 1 = Some m2 -> tos s 2 = Some m1 ->
  member_number m1 base a -> member_number m2 base b ->
  0 < a < 16 -> 16 <= b < 31 -> 31 < a + b ->
  exec_insn s (mkOp oSETOP nSUBRANGE x) = UB.
Proof.
  intros s m1 m2 base a b x Rm H6 Hb H2 H1 Ha Hb2 La Lb Lab.
  destruct (subrange_start s m1 m2 base a b x Rm H6 Hb H2 H1 Ha Hb2) as (t & d & Ed & I0 & I3 & F & ->).
  replace ((b <? 0) || (64 <=? b)) with false by lia.
  replace ((a <? 0) || (b <? a)) with false by lia.
  replace (a / 16 =? b / 16) with false by lia.
  assert (Hc : c_ssz (cf t) <= 65536).
  { destruct F as (((C & _) & _) & _). cbn [cf with_sp with_pc] in C. rewrite C. apply Rm. }
  assert (Hd : 0 <= d) by (unfold room in Rm; lia).
  assert (E : subrange_bound = S (Z.to_nat 65535)) by (unfold subrange_bound; lia).
  rewrite E. cbn [subrange_loop]. replace (0 <? b - a + 1) with true by lia.
  destruct (wr t (d + a / 16) _) as [u|] eqn:W; [|reflexivity]. cbn [bindo]. cbv zeta.
  replace (b - a + 1 - (16 - a)) with (b mod 16 + 1) by lia.
  replace (16 <=? b mod 16 + 1) with false by lia. replace (0 <? b mod 16 + 1) with true by lia.
  apply wr_some in W. destruct W as [_ ->].
  apply subrange_runs_away; cbn [cf with_mem]; lia.
Qed.

(** Two words in the middle: the tail is written to the word after the last. *)
Definition sub_check2 (a b : Z) : bool :=
  implb ((16 <=? a) && (a <? 32) && (32 <=? b) && (b <? 48))
    (match sub_list a b with
     | Some l =>
       forallb (fun iv => (0 <=? fst iv) && (fst iv <? 4) && (0 <=? snd iv) && (snd iv <? 65536)) l &&
       has (fold_left put l [0; 0; 0; 0]) 48
     | None => false
     end).

Lemma sub_check2_all : forallb (fun a => forallb (sub_check2 a) elements) elements = true.
Proof. vm_compute. reflexivity. Qed.

Lemma subrange_wrong : forall s m1 m2 base a b x,
  room s 1 -> 6 <= sp s -> tos s 0 = Some base -> tos s 1 = Some m2 -> tos s 2 = Some m1 ->
  member_number m1 base a -> member_number m2 base b -> 16 <= a < 32 -> 32 <= b < 48 ->
  exists s' ws, exec_insn s (mkOp oSETOP nSUBRANGE x) = Ok s' /\ stack_effect s s' 3 ws /\ member_of ws 48.
Proof.
  intros s m1 m2 base a b x Rm H6 Hb H2 H1 Ha Hb2 La Lb.
  destruct (subrange_start s m1 m2 base a b x Rm H6 Hb H2 H1 Ha Hb2) as (t & d & Ed & I0 & I3 & F & ->).
  replace ((b <? 0) || (64 <=? b)) with false by lia.
  replace ((a <? 0) || (b <? a)) with false by lia.
  pose proof sub_check2_all as C. rewrite forallb_forall in C.
  specialize (C a (proj2 (in_elements a) ltac:(lia))). rewrite forallb_forall in C.
  specialize (C b (proj2 (in_elements b) ltac:(lia))). unfold sub_check2 in C.
  replace ((16 <=? a) && (a <? 32) && (32 <=? b) && (b <? 48)) with true in C by lia. cbn [implb] in C.
  destruct (sub_list a b) as [l|] eqn:El; [|discriminate].
  apply andb_true_iff in C. destruct C as [C1 C2]. rewrite forallb_forall in C1.
  rewrite (subrange_tail _ d t a b l _ F El).
  assert (Hl : forall iv, In iv l -> 0 <= fst iv < 4 /\ 0 <= snd iv < 65536).
  { intros iv Hiv. specialize (C1 iv Hiv). lia. }
  destruct (do_writes_four _ d l t _ F I0 I3 Hl) as (u & -> & Fu).
  exists u, (fold_left put l [0; 0; 0; 0]). split; [reflexivity|].
  split; [rewrite Ed in Fu; exact (written_effect (with_pc s (u16 (pc s + 2))) u 3 _ H6 Fu)|].
  apply member_of_bit; [lia|exact C2].
Qed.

(** Nothing is reported when the element is out of range: for 64..79 the
    number is ignored, beyond that memory above the stack top is modified. *)
Lemma include_unreported : forall s m z x,
  room s 0 -> 16 <= sp s -> tos s 0 = Some m -> signed16 m z -> 64 <= z -> sp s + z / 8 < c_ssz (cf s) ->
  exists s', exec_insn s (mkOp oSETOP nINCLUDE x) = Ok s' /\
    exists w, rd s' (sp s / 2 - 4 + z / 16) = Some w /\ Z.testbit w (z mod 16) = true.
Proof.
  intros s m z x Rm H16 Hm Hz H64 Hc. set (s1 := with_pc s (u16 (pc s + 2))).
  change (exec_insn s (mkOp oSETOP nINCLUDE x)) with (set_include s1).
  unfold set_include. rewrite (pop_eq s1 m Hm). cbn [bindo].
  replace (s16 m) with z by (apply signed16_unique, Hz). cbv zeta.
  assert (Hz' : z <= 32767) by apply Hz.
  set (s2 := with_sp s1 _).
  assert (Es : sp s2 / 2 - 3 = sp s / 2 - 4).
  { cbn [s2 s1 sp with_sp with_pc]. rewrite u16_small; unfold room in Rm; lia. }
  rewrite Es, (u16_small (z / 16)) by lia.
  assert (I : in_word s2 (sp s / 2 - 4 + z / 16) = true).
  { rewrite in_word_iff. cbn [s2 s1 cf with_sp with_pc]. unfold room in Rm. lia. }
  rewrite (rd_in _ _ I). cbn [bindo].
  destruct (wr_ex s2 _ (Z.lor (u16 (mem s2 (sp s / 2 - 4 + z / 16))) (Z.shiftl 1 (z mod 16))) I) as (t & -> & _ & R & _).
  cbn [ret]. exists t. split; [reflexivity|]. eexists. split; [exact R|].
  rewrite testbit_u16, Z.lor_spec, Z.shiftl_1_l, Z.pow2_bits_true, orb_true_r by lia. reflexivity.
Qed.
