(** Execution of instructions on a stack known symbolically. *)

From Coq Require Import ZArith Bool List Lia ZifyBool.
From Verif Require Import Words State Opcodes SetModel LongModel Machine WordLemmas StateLemmas VmSpec VmProofs MemProofs OptSpec.
Import ListNotations.
Open Scope Z_scope.
Ltac Zify.zify_post_hook ::= Z.div_mod_to_equations.

Notation len l := (Z.of_nat (length l)).

(** [s] was reached from [s0] by replacing the [DEPTH] words at its top with the
    words [k] (head: top of the stack); DEPTH further words may have been used. *)
Record top (s0 s : st) (k : list Z) : Prop := mkTop
  { top_regs : same_regs s0 s;
    top_sp : sp s = sp s0 - 2 * DEPTH + 2 * len k;
    top_words : forall j v, nth_error k j = Some v -> rd s (sp s / 2 - Z.of_nat j) = Some v;
    top_rest : forall i, ~ (sp s0 / 2 - DEPTH < i <= sp s0 / 2 + DEPTH) -> rd s i = rd s0 i }.

Definition start (s0 : st) : Prop := room s0 DEPTH /\ 2 * DEPTH <= sp s0.

Lemma start_top s0 : start s0 -> exists v0 v1 v2 v3, top s0 s0 [v0; v1; v2; v3].
Proof.
  intros [(R1 & R2 & R3 & R4) H]. unfold DEPTH in *.
  assert (Hr : forall j, 0 <= j < 4 -> exists v, rd s0 (sp s0 / 2 - j) = Some v).
  { intros j Hj. eexists. apply rd_in. apply in_word_iff. lia. }
  destruct (Hr 0) as [v0 H0]; [lia|]. destruct (Hr 1) as [v1 H1]; [lia|].
  destruct (Hr 2) as [v2 H2]; [lia|]. destruct (Hr 3) as [v3 H3]; [lia|].
  exists v0, v1, v2, v3. constructor.
  - repeat split.
  - unfold DEPTH. cbn [length]. lia.
  - intros j v E. do 4 (destruct j as [|j]; [injection E as <-; assumption|]). destruct j; discriminate.
  - auto.
Qed.

Section Top.
  Variable s0 : st.
  Hypothesis S0 : start s0.

  Lemma top_range s k : top s0 s k -> (length k <= 8)%nat ->
    0 <= sp s < 65536 /\ cf s = cf s0.
  Proof.
    intros T Hk. destruct S0 as [(R1 & R2 & R3 & R4) H]. unfold DEPTH in *.
    rewrite (top_sp _ _ _ T). unfold DEPTH. destruct T as [(E & _) _ _ _]. split; [lia|exact E].
  Qed.

  Lemma top_len_in s k : top s0 s k -> (length k <= 8)%nat -> forall j, 0 <= j < len k ->
    in_word s (sp s / 2 - j) = true.
  Proof.
    intros T Hk j Hj. destruct S0 as [(R1 & R2 & R3 & R4) H]. unfold DEPTH in *.
    apply in_word_iff. destruct T as [(E & _) E2 _ _]. rewrite E, E2. unfold DEPTH. lia.
  Qed.

  Lemma top_tos s k j v : top s0 s k -> nth_error k (Z.to_nat j) = Some v -> 0 <= j -> tos s j = Some v.
  Proof.
    intros T E Hj. unfold tos. pose proof (top_words _ _ _ T _ _ E) as H.
    rewrite Z2Nat.id in H by lia. exact H.
  Qed.

  Lemma top_val s k j v : top s0 s k -> nth_error k j = Some v -> 0 <= v < 65536.
  Proof.
    intros T E. pose proof (top_words _ _ _ T _ _ E) as H. unfold rd in H.
    destruct (in_word s _); [|discriminate]. injection H as <-. apply u16_range.
  Qed.

  Lemma top_drop s k v : top s0 s (v :: k) -> (length k <= 7)%nat -> top s0 (with_sp s (u16 (sp s - 2))) k.
  Proof.
    intros T Hk. pose proof (top_range _ _ T) as Hr. cbn [length] in Hr.
    destruct Hr as [Hr _]; [lia|].
    assert (Es : u16 (sp s - 2) = sp s - 2).
    { apply u16_small. rewrite (top_sp _ _ _ T). cbn [length]. destruct S0 as [R H].
      destruct R. unfold DEPTH in *. rewrite (top_sp _ _ _ T) in Hr. cbn [length] in Hr. unfold DEPTH in *. lia. }
    rewrite Es. constructor.
    - exact (top_regs _ _ _ T).
    - cbn [sp with_sp]. rewrite (top_sp _ _ _ T). cbn [length]. lia.
    - intros j w E. cbn [sp with_sp]. rewrite rd_sp.
      pose proof (top_words _ _ _ T (S j) w E) as H.
      replace ((sp s - 2) / 2 - Z.of_nat j) with (sp s / 2 - Z.of_nat (S j)) by lia. exact H.
    - intros i Hi. rewrite rd_sp. apply (top_rest _ _ _ T). exact Hi.
  Qed.

  Lemma top_pop s k v : top s0 s (v :: k) -> (length k <= 7)%nat ->
    pop s = Some (v, with_sp s (u16 (sp s - 2))) /\ top s0 (with_sp s (u16 (sp s - 2))) k.
  Proof.
    intros T Hk. split; [|apply (top_drop _ _ _ T Hk)].
    unfold pop. pose proof (top_words _ _ _ T 0%nat v eq_refl) as H.
    replace (sp s / 2 - Z.of_nat 0) with (sp s / 2) in H by lia. rewrite H. reflexivity.
  Qed.

  (** writing the word [j] *)
  Lemma top_put s k j w : top s0 s k -> (length k <= 8)%nat -> (j < length k)%nat ->
    exists s', puttos s (Z.of_nat j) w = Some s' /\
      top s0 s' (firstn j k ++ u16 w :: skipn (S j) k) /\ pc s' = pc s.
  Proof.
    intros T Hk Hj. pose proof (top_len_in _ _ T Hk (Z.of_nat j)) as Hin.
    unfold puttos, wr. rewrite Hin by lia. eexists. split; [reflexivity|]. split; [|reflexivity].
    assert (HL : length (firstn j k ++ u16 w :: skipn (S j) k) = length k).
    { rewrite app_length, firstn_length. cbn [length]. rewrite skipn_length. lia. }
    constructor.
    - exact (top_regs _ _ _ T).
    - cbn [sp with_mem]. rewrite HL. exact (top_sp _ _ _ T).
    - intros i v E. cbn [sp with_mem].
      destruct (Nat.eq_dec i j) as [->|Hn].
      + rewrite nth_error_app2 in E by (rewrite firstn_length; lia).
        rewrite firstn_length in E. replace (j - Nat.min j (length k))%nat with 0%nat in E by lia.
        injection E as <-. unfold rd, in_word, with_mem; cbn [cf mem]. unfold in_word in Hin.
        rewrite Hin by lia. unfold upd. rewrite Z.eqb_refl. rewrite u16_u16. reflexivity.
      + assert (E' : nth_error k i = Some v).
        { destruct (Nat.lt_ge_cases i j) as [H|H].
          - rewrite nth_error_app1 in E by (rewrite firstn_length; lia).
            rewrite <- E. clear - H. revert i k H. induction j; intros [|i] k H; [lia|lia|destruct k; reflexivity|].
            destruct k; [reflexivity|]. cbn. apply IHj. lia.
          - rewrite nth_error_app2 in E by (rewrite firstn_length; lia).
            rewrite firstn_length in E. replace (i - Nat.min j (length k))%nat with (S (i - j - 1)) in E by lia.
            cbn [nth_error] in E. rewrite <- E. 
            assert (Hs : forall n m (l : list Z), nth_error (skipn n l) m = nth_error l (n + m)).
            { induction n; intros m [|x l]; cbn; auto. destruct m; reflexivity. }
            rewrite Hs. f_equal. lia. }
        pose proof (top_words _ _ _ T i v E') as H. rewrite <- H. unfold rd, in_word, with_mem; cbn [cf mem].
        unfold upd. replace (sp s / 2 - Z.of_nat i =? sp s / 2 - Z.of_nat j) with false by lia. reflexivity.
    - intros i Hi. rewrite <- (top_rest _ _ _ T i Hi). unfold rd, in_word, with_mem; cbn [cf mem]. unfold upd.
      replace (i =? sp s / 2 - Z.of_nat j) with false; [reflexivity|].
      symmetry. apply Z.eqb_neq. intros ->. apply Hi.
      rewrite (top_sp _ _ _ T). unfold DEPTH in *. lia.
  Qed.

  Lemma top_puttos0 s v k w : top s0 s (v :: k) -> (length k <= 7)%nat ->
    exists s', puttos s 0 w = Some s' /\ top s0 s' (u16 w :: k) /\ pc s' = pc s.
  Proof. intros T Hk. exact (top_put s (v :: k) 0 w T ltac:(cbn; lia) ltac:(cbn; lia)). Qed.
  Lemma top_puttos1 s v v1 k w : top s0 s (v :: v1 :: k) -> (length k <= 6)%nat ->
    exists s', puttos s 1 w = Some s' /\ top s0 s' (v :: u16 w :: k) /\ pc s' = pc s.
  Proof. intros T Hk. exact (top_put s (v :: v1 :: k) 1 w T ltac:(cbn; lia) ltac:(cbn; lia)). Qed.

  Lemma top_push s k w : top s0 s k -> (length k <= 7)%nat ->
    exists s', push s w = Some s' /\ top s0 s' (u16 w :: k) /\ pc s' = pc s.
  Proof.
    intros T Hk. destruct S0 as [(R1 & R2 & R3 & R4) H]. unfold DEPTH in *.
    pose proof (top_sp _ _ _ T) as Es. unfold DEPTH in Es.
    destruct (top_regs _ _ _ T) as (Ec & _).
    assert (Hsp : u16 (sp s + 2) = sp s + 2) by (apply u16_small; lia).
    unfold push. cbv zeta. cbn [sp with_sp]. rewrite Hsp. unfold wr.
    assert (Hin : in_word (with_sp s (sp s + 2)) ((sp s + 2) / 2) = true).
    { apply in_word_iff. cbn [cf with_sp]. rewrite Ec. lia. }
    rewrite Hin. eexists. split; [reflexivity|]. split; [|reflexivity].
    constructor.
    - exact (top_regs _ _ _ T).
    - cbn [sp with_mem with_sp length]. unfold DEPTH. lia.
    - intros j v E. cbn [sp with_mem with_sp]. destruct j as [|j].
      + injection E as <-. unfold rd, in_word, with_mem, with_sp in *; cbn [cf mem] in *.
        replace ((sp s + 2) / 2 - Z.of_nat 0) with ((sp s + 2) / 2) by lia.
        rewrite Hin. unfold upd. rewrite Z.eqb_refl, u16_u16. reflexivity.
      + pose proof (top_words _ _ _ T j v E) as Hv. rewrite <- Hv.
        replace ((sp s + 2) / 2 - Z.of_nat (S j)) with (sp s / 2 - Z.of_nat j) by lia.
        unfold rd, in_word, with_mem, with_sp; cbn [cf mem]. unfold upd.
        replace (sp s / 2 - Z.of_nat j =? (sp s + 2) / 2) with false by lia. reflexivity.
    - intros i Hi. rewrite <- (top_rest _ _ _ T i Hi). unfold rd, in_word, with_mem, with_sp; cbn [cf mem]. unfold upd.
      replace (i =? (sp s + 2) / 2) with false; [reflexivity|]. symmetry. apply Z.eqb_neq. intros ->. apply Hi. unfold DEPTH. lia.
  Qed.

  Lemma top_pc s k p : top s0 s k -> top s0 (with_pc s p) k.
  Proof. intros [A B C D]. constructor; assumption. Qed.

  (** Two ways to the same symbolic stack agree. *)
  Lemma top_agree s s' k : top s0 s k -> top s0 s' k -> (length k <= 8)%nat ->
    agree (sp s0 / 2 + DEPTH) s s'.
  Proof.
    intros T T' Hk. destruct (top_regs _ _ _ T) as (A1 & A2 & A3 & A4 & A5).
    destruct (top_regs _ _ _ T') as (B1 & B2 & B3 & B4 & B5).
    pose proof (top_sp _ _ _ T) as Es. pose proof (top_sp _ _ _ T') as Es'.
    split; [|split].
    - repeat split; congruence.
    - congruence.
    - intros i Hi.
      destruct (Z_le_gt_dec i (sp s0 / 2 - DEPTH)) as [H|H].
      { rewrite (top_rest _ _ _ T), (top_rest _ _ _ T') by lia. reflexivity. }
      destruct (Z_le_gt_dec i (sp s / 2)) as [H'|H'].
      + assert (exists v, nth_error k (Z.to_nat (sp s / 2 - i)) = Some v) as [v E].
        { destruct (nth_error k (Z.to_nat (sp s / 2 - i))) eqn:E; [eauto|].
          apply nth_error_None in E. unfold DEPTH in *. lia. }
        pose proof (top_words _ _ _ T _ _ E) as Hv. pose proof (top_words _ _ _ T' _ _ E) as Hv'.
        rewrite Z2Nat.id in Hv, Hv' by lia.
        replace (sp s / 2 - (sp s / 2 - i)) with i in Hv by lia.
        replace (sp s' / 2 - (sp s / 2 - i)) with i in Hv' by (rewrite Es', <- Es; lia). congruence.
      + rewrite (top_rest _ _ _ T), (top_rest _ _ _ T') by lia. reflexivity.
  Qed.
End Top.
