(** Running the code of an expression: composition and single instructions. *)

From Coq Require Import ZArith Bool List Lia.
From Verif Require Import Words WordLemmas State StateLemmas Opcodes SetModel LongModel Machine VmSpec LongSpec
  VmProofs MemProofs MultiProofs LongProofs ExprModel ExprSpec.
Import ListNotations.
Open Scope Z_scope.

Lemma exec_app a b s : exec_list (a ++ b) s =
  match exec_list a s with Ok s' => exec_list b s' | r => r end.
Proof.
  revert s. induction a as [|p a IH]; intro s; [reflexivity|].
  cbn [exec_list app]. destruct (exec_insn s p); try reflexivity. apply IH.
Qed.

(** The words on the top of the stack *)
Definition tops (s : st) (ws : list Z) : Prop :=
  forall k v, nth_error ws k = Some v -> rd s (sp s / 2 - Z.of_nat (length ws) + 1 + Z.of_nat k) = Some v.

Lemma half_add a k : (a + 2 * k) / 2 = a / 2 + k.
Proof. rewrite Z.mul_comm. apply Z.div_add. lia. Qed.

Lemma pushed_tops s s1 ws : pushed s s1 ws -> tops s1 ws.
Proof.
  intros (_ & E & H & _) k v K.
  replace (sp s1) with (sp s + 2 * Z.of_nat (length ws)) by lia. rewrite half_add.
  replace (sp s / 2 + Z.of_nat (length ws) - Z.of_nat (length ws) + 1 + Z.of_nat k)
    with (sp s / 2 + 1 + Z.of_nat k) by lia. auto.
Qed.

Lemma same_regs_trans a b c : same_regs a b -> same_regs b c -> same_regs a c.
Proof. unfold same_regs. intuition congruence. Qed.

Lemma nth_app {A} (u v : list A) k :
  nth_error (u ++ v) k = if (k <? length u)%nat then nth_error u k else nth_error v (k - length u).
Proof.
  destruct (Nat.ltb_spec k (length u)); [apply nth_error_app1|apply nth_error_app2]; lia.
Qed.

Lemma effect_pushed s s' ws : stack_effect s s' 0 ws -> pushed s s' ws.
Proof.
  intros (A & B & C & D). split; [exact A|]. split; [lia|]. split.
  - intros k v K. rewrite <- (C k v K). f_equal. lia.
  - intros i Hi. apply D. lia.
Qed.

(** [us ++ vs] were pushed, then [vs] replaced *)
Lemma pushed_then s s1 s2 us vs ws :
  pushed s s1 (us ++ vs) -> stack_effect s1 s2 (Z.of_nat (length vs)) ws -> pushed s s2 (us ++ ws).
Proof.
  intros (A1 & A2 & A3 & A4) (B1 & B2 & B3 & B4).
  rewrite app_length in A2. unfold pushed. rewrite app_length.
  assert (E : sp s1 / 2 = sp s / 2 + Z.of_nat (length us) + Z.of_nat (length vs)).
  { rewrite A2. replace (sp s + 2 * Z.of_nat (length us + length vs))
      with (sp s + 2 * (Z.of_nat (length us) + Z.of_nat (length vs))) by lia.
    rewrite half_add. lia. }
  rewrite E in B3, B4.
  split; [apply (same_regs_trans _ _ _ A1 B1)|]. split; [lia|]. split.
  - intros k v K. rewrite nth_app in K. destruct (Nat.ltb_spec k (length us)).
    + rewrite B4 by lia. apply A3. rewrite nth_error_app1 by lia. exact K.
    + apply B3 in K. rewrite <- K. f_equal. lia.
  - intros i Hi. rewrite B4 by lia. apply A4. lia.
Qed.

Lemma pushed_nil s : pushed s s [].
Proof. repeat split; cbn; try lia; auto. intros [|k] v K; discriminate. Qed.

Lemma pushed_app s s1 s2 us ws : pushed s s1 us -> pushed s1 s2 ws -> pushed s s2 (us ++ ws).
Proof.
  intros (A1 & A2 & A3 & A4) (B1 & B2 & B3 & B4). unfold pushed. rewrite app_length.
  assert (E : sp s1 / 2 = sp s / 2 + Z.of_nat (length us)) by (rewrite A2; apply half_add).
  rewrite E in B3, B4.
  split; [apply (same_regs_trans _ _ _ A1 B1)|]. split; [lia|]. split.
  - intros k v K. rewrite nth_app in K. destruct (Nat.ltb_spec k (length us)).
    + rewrite B4 by lia. apply A3. exact K.
    + apply B3 in K. rewrite <- K. f_equal. lia.
  - intros i Hi. rewrite B4 by lia. apply A4. lia.
Qed.

Lemma located_mono lev s s1 ws x z : pushed s s1 ws -> located lev s x z -> located lev s1 x z.
Proof.
  intros (A1 & A2 & _ & A4) H s' S R.
  assert (E : sp s / 2 <= sp s1 / 2) by (apply Z.div_le_mono; lia).
  destruct (H s') as (a & H1 & H2 & H3).
  - apply (same_regs_trans _ _ _ A1 S).
  - intros i Hi. rewrite R by lia. apply A4. lia.
  - exists a. repeat split; auto. lia.
Qed.

Lemma room_pushed s s1 k ws : pushed s s1 ws -> room s k -> room s1 (k - Z.of_nat (length ws)).
Proof.
  intros ((C & _) & E & _) (R1 & R2 & R3 & R4). unfold room. rewrite C. repeat split; auto; lia.
Qed.

Lemma room_mono s k j : room s k -> j <= k -> room s j.
Proof. unfold room. lia. Qed.

(** ** Composition *)

Section Compose.
  Variables (lev : Z) (env : var -> Z).
  Notation comp c k xs ws := (computes lev c k xs env ws).

  Lemma computes_weaken c k k' xs xs' ws : comp c k xs ws -> k <= k' -> incl xs xs' -> comp c k' xs' ws.
  Proof. intros H L I s R V. apply H; [eapply room_mono; eauto|intros; apply V, I; assumption]. Qed.

  Lemma computes_seq c d k1 k2 k xs ys us ws :
    comp c k1 xs us -> comp d k2 ys ws -> k1 <= k -> k2 + Z.of_nat (length us) <= k ->
    comp (c ++ d) k (xs ++ ys) (us ++ ws).
  Proof.
    intros H1 H2 L1 L2 s R V.
    destruct (H1 s) as (s1 & E1 & F1); [eapply room_mono; eauto|intros; apply V, in_or_app; auto|].
    destruct (H2 s1) as (s2 & E2 & F2).
    - apply (room_mono _ (k - Z.of_nat (length us))); [|lia]. apply (room_pushed s s1 k us F1 R).
    - intros x Hx. apply (located_mono lev s s1 us); auto. apply V, in_or_app. auto.
    - exists s2. split; [rewrite exec_app, E1; exact E2|]. eapply pushed_app; eauto.
  Qed.

  (** An instruction that replaces the words on the top of the stack *)
  Definition rewrites (p : opType) (k : Z) (vs ws : list Z) : Prop :=
    forall s, room s k -> 2 * Z.of_nat (length vs) <= sp s -> tops s vs ->
    exists s', exec_insn s p = Ok s' /\ stack_effect s s' (Z.of_nat (length vs)) ws.

  Lemma computes_op c p k j k' xs us vs ws :
    comp c k xs (us ++ vs) -> rewrites p j vs ws -> k <= k' ->
    j + Z.of_nat (length (us ++ vs)) <= k' ->
    comp (c ++ [p]) k' xs (us ++ ws).
  Proof.
    intros H O L L2 s R V.
    destruct (H s) as (s1 & E1 & F1); [eapply room_mono; eauto|exact V|].
    destruct (O s1) as (s2 & E2 & F2).
    - apply (room_mono _ (k' - Z.of_nat (length (us ++ vs)))); [|lia]. apply (room_pushed s s1 k' _ F1 R).
    - destruct F1 as (_ & E & _). rewrite app_length in E. destruct R. lia.
    - pose proof (pushed_tops _ _ _ F1) as T. intros i v K.
      specialize (T (length us + i)%nat v). rewrite app_length in T.
      rewrite nth_error_app2 in T by lia. replace (length us + i - length us)%nat with i in T by lia.
      rewrite <- (T K). f_equal. lia.
    - exists s2. split.
      + rewrite exec_app, E1. cbn [exec_list]. rewrite E2. reflexivity.
      + eapply pushed_then; eauto.
  Qed.

  Lemma computes_op_all c p k j k' xs vs ws :
    comp c k xs vs -> rewrites p j vs ws -> k <= k' -> j + Z.of_nat (length vs) <= k' ->
    comp (c ++ [p]) k' xs ws.
  Proof. intros H O. apply (computes_op c p k j k' xs [] vs ws); assumption. Qed.

  Lemma computes_nil : comp [] 0 [] [].
  Proof. intros s _ _. exists s. split; [reflexivity|apply pushed_nil]. Qed.

  Lemma computes_push x v k : 0 <= v < 65536 -> 1 <= k -> comp [mkOp oPUSH x v] k [] [v].
  Proof.
    intros V K s R _. destruct (push_insn s x v) as (s' & E & F & _); auto.
    - eapply room_mono; eauto.
    - exists s'. split; [cbn [exec_list]; rewrite E; reflexivity|apply effect_pushed, F].
  Qed.
End Compose.

(** ** 16-bit instructions *)

Lemma tops1 s a : tops s [a] -> tos s 0 = Some a.
Proof. intro T. specialize (T 0%nat a eq_refl). cbn in T. unfold tos. rewrite <- T. f_equal. lia. Qed.
Lemma tops2 s a b : tops s [a; b] -> tos s 1 = Some a /\ tos s 0 = Some b.
Proof.
  intro T. pose proof (T 0%nat a eq_refl) as A. pose proof (T 1%nat b eq_refl) as B. cbn in A, B.
  unfold tos. rewrite <- A, <- B. split; f_equal; lia.
Qed.
Lemma tops4 s a b c d : tops s [a; b; c; d] ->
  tos s 3 = Some a /\ tos s 2 = Some b /\ tos s 1 = Some c /\ tos s 0 = Some d.
Proof.
  intro T. pose proof (T 0%nat a eq_refl) as A. pose proof (T 1%nat b eq_refl) as B.
  pose proof (T 2%nat c eq_refl) as C. pose proof (T 3%nat d eq_refl) as D. cbn in A, B, C, D.
  unfold tos. rewrite <- A, <- B, <- C, <- D. repeat split; f_equal; lia.
Qed.

Lemma room_sp s k : room s k -> 0 <= k -> 0 <= sp s < 65536.
Proof. unfold room. lia. Qed.

Lemma rw_unary c D R a w x y : In (c, D, R) unary_ops -> D a -> (forall r, R a r -> r = w) ->
  rewrites (mkOp c x y) 0 [a] [w].
Proof.
  intros I HD HR s R0 _ T. apply tops1 in T.
  destruct (unary_ops_correct c D R s a x y I (room_sp _ _ R0 ltac:(lia)) T HD) as (s' & r & E & Hr & F & _).
  apply HR in Hr. subst r. exists s'. auto.
Qed.

Lemma rw_binary c D R a b w x y : In (c, D, R) binary_ops -> D a b -> (forall r, R a b r -> r = w) ->
  rewrites (mkOp c x y) 0 [a; b] [w].
Proof.
  intros I HD HR s R0 _ T. apply tops2 in T. destruct T as (T1 & T2).
  destruct (binary_ops_correct c D R s a b x y I (room_sp _ _ R0 ltac:(lia)) T1 T2 HD) as (s' & r & E & Hr & F & _).
  apply HR in Hr. subst r. exists s'. auto.
Qed.

Lemma word16_mod r z : word16 r z -> r = z mod 65536.
Proof. intros (H & k & E). subst r. rewrite <- (Z.mod_small (z + 65536 * k) 65536) by lia.
  replace (z + 65536 * k) with (z + k * 65536) by lia. now rewrite Z.mod_add by lia. Qed.

Lemma signed16_cong x x' : signed16 (x mod 65536) x' -> exists k, x' = x + 65536 * k.
Proof.
  intros (_ & k & E). pose proof (Z.div_mod x 65536 ltac:(lia)). exists (- k - x / 65536). lia.
Qed.
Lemma signed16_val x x' : -32768 <= x <= 32767 -> signed16 (x mod 65536) x' -> x' = x.
Proof. intros H S. destruct S as (A & k & E). pose proof (Z.mod_pos_bound x 65536). pose proof (Z.div_mod x 65536). lia. Qed.
Lemma mod_cong a b k : a = b + 65536 * k -> a mod 65536 = b mod 65536.
Proof. intros ->. rewrite Z.mul_comm. apply Z.mod_add. lia. Qed.

Lemma bitwise_mod f x y r (g : Z) : bitwise f (x mod 65536) (y mod 65536) r ->
  (forall i, 0 <= i -> Z.testbit g i = f (Z.testbit x i) (Z.testbit y i)) -> r = g mod 65536.
Proof.
  intros (B & H) G. apply Z.bits_inj'. intros i Hi.
  change 65536 with (2 ^ 16). destruct (Z.lt_ge_cases i 16).
  - rewrite H by lia. rewrite Z.mod_pow2_bits_low by lia.
    change 65536 with (2 ^ 16). rewrite !Z.mod_pow2_bits_low by lia. now rewrite G.
  - rewrite Z.mod_pow2_bits_high by lia.
    destruct (Z.eq_dec r 0) as [->|]; [apply Z.bits_0|].
    apply Z.bits_above_log2; [lia|].
    assert (Z.log2 r < 16) by (apply Z.log2_lt_pow2; lia). lia.
Qed.

Lemma truncdiv_unique x y q m q' m' : truncdiv x y q m -> truncdiv x y q' m' -> q = q' /\ m = m'.
Proof.
  intros (E & L & S) (E' & L' & S').
  assert (Q : q = q').
  { destruct (Z.eq_dec q q') as [|N]; [assumption|exfalso].
    assert (D : y * (q - q') = m' - m) by lia.
    assert (A : Z.abs y <= Z.abs (m' - m)).
    { rewrite <- D, Z.abs_mul. assert (1 <= Z.abs (q - q')) by lia. nia. }
    destruct (Z.lt_trichotomy x 0) as [X|[X|X]].
    - assert (m <= 0) by nia. assert (m' <= 0) by nia. lia.
    - assert (q = 0) by (destruct (Z.eq_dec q 0); [assumption|]; assert (Z.abs y <= Z.abs (y * q)) by (rewrite Z.abs_mul; nia); lia).
      assert (q' = 0) by (destruct (Z.eq_dec q' 0); [assumption|]; assert (Z.abs y <= Z.abs (y * q')) by (rewrite Z.abs_mul; nia); lia).
      lia.
    - assert (0 <= m) by nia. assert (0 <= m') by nia. lia. }
  subst q'. lia.
Qed.
Lemma truncdiv_is x y q m : y <> 0 -> truncdiv x y q m -> q = Z.quot x y /\ m = Z.rem x y.
Proof. intros Y H. apply (truncdiv_unique x y); [exact H|apply truncdiv_quot; exact Y]. Qed.

Notation w1 z := [z mod 65536] (only parsing).

Ltac inlist := cbn [In unary_ops binary_ops long_unary_ops long_binary_ops long_relation_ops load_ops loadm_ops]; tauto.

Lemma rw_neg x : rewrites (mkOp oNEG 0 0) 0 (w1 x) (w1 (- x)).
Proof.
  eapply rw_unary; [inlist|exact I|]. intros r (x' & S & W).
  apply signed16_cong in S. destruct S as (k & ->). apply word16_mod in W. subst r.
  apply (mod_cong _ _ (- k)). lia.
Qed.
Lemma rw_not x : rewrites (mkOp oNOT 0 0) 0 (w1 x) (w1 (- x - 1)).
Proof.
  eapply rw_unary; [inlist|exact I|]. intros r H.
  apply (bitwise_mod (fun a _ => negb a) x 0 r (- x - 1)); [exact H|].
  intros i Hi. replace (- x - 1) with (Z.lnot x) by (unfold Z.lnot; lia). apply Z.lnot_spec. exact Hi.
Qed.

Lemma rw_dup a : rewrites (mkOp oDUP 0 0) 1 [a] [a; a].
Proof.
  intros s R S T. apply tops1 in T. pose proof (tos_range _ _ _ T) as A.
  change (exec_insn s (mkOp oDUP 0 0)) with (next 1 (v <- tos s 0 ;; ret (push s v))). rewrite T. cbn [bindo].
  destruct (push_effect s a) as (s' & E & F & _); [exact R|exact A|]. rewrite E. cbn [ret next].
  eexists. split; [reflexivity|]. apply effect_with_pc. destruct F as (F1 & F2 & F3 & F4).
  cbn [length] in *. split; [exact F1|]. split; [cbn [length]; lia|]. split.
  - intros [|[|[|k]]] v K; cbn in K; try discriminate; injection K as <-.
    + rewrite F4 by lia. unfold tos in T. rewrite <- T. f_equal. lia.
    + rewrite <- (F3 0%nat a eq_refl). f_equal. lia.
  - intros i Hi. cbn [length] in Hi. destruct (Z.eq_dec i (sp s / 2)) as [->|N].
    + exfalso. lia.
    + apply F4. lia.
Qed.

Ltac cong2 := eapply rw_binary; [inlist|exact I|]; intros r (x' & y' & S & S' & W);
  apply signed16_cong in S; destruct S as (k & ->); apply signed16_cong in S'; destruct S' as (j & ->);
  apply word16_mod in W; subst r.
Lemma rw_add x y : rewrites (mkOp oADD 0 0) 0 (w1 x ++ w1 y) (w1 (x + y)).
Proof. cong2. apply (mod_cong _ _ (k + j)). lia. Qed.
Lemma rw_sub x y : rewrites (mkOp oSUB 0 0) 0 (w1 x ++ w1 y) (w1 (x - y)).
Proof. cong2. apply (mod_cong _ _ (k - j)). lia. Qed.
Lemma rw_mul x y : rewrites (mkOp oMUL 0 0) 0 (w1 x ++ w1 y) (w1 (x * y)).
Proof. cong2. apply (mod_cong _ _ (k * y + x * j + 65536 * k * j)). lia. Qed.

Ltac bits2 L := eapply rw_binary; [inlist|exact I|]; intros r H; eapply bitwise_mod; [exact H|];
  intros i Hi; apply L.
Lemma rw_or x y : rewrites (mkOp oOR 0 0) 0 (w1 x ++ w1 y) (w1 (Z.lor x y)).
Proof. bits2 Z.lor_spec. Qed.
Lemma rw_and x y : rewrites (mkOp oAND 0 0) 0 (w1 x ++ w1 y) (w1 (Z.land x y)).
Proof. bits2 Z.land_spec. Qed.
Lemma rw_xor x y : rewrites (mkOp oXOR 0 0) 0 (w1 x ++ w1 y) (w1 (Z.lxor x y)).
Proof. bits2 Z.lxor_spec. Qed.

Definition s16r (z : Z) := -32768 <= z <= 32767.
Definition u16r (z : Z) := 0 <= z <= 65535.
Lemma mod_nonzero y : s16r y \/ u16r y -> y <> 0 -> y mod 65536 <> 0.
Proof. unfold s16r, u16r. intros H N E. apply Z.mod_divide in E; [|lia]. destruct E as (k & E). lia. Qed.
Lemma umod z : u16r z -> z mod 65536 = z.
Proof. unfold u16r. intros. apply Z.mod_small. lia. Qed.

Lemma rw_div x y : s16r x -> s16r y -> y <> 0 -> rewrites (mkOp oDIV 0 0) 0 (w1 x ++ w1 y) (w1 (Z.quot x y)).
Proof.
  intros X Y N. eapply rw_binary; [inlist|apply mod_nonzero; auto|].
  intros r (x' & y' & S & S' & q & m & T & W). apply signed16_val in S, S'; auto. subst.
  apply truncdiv_is in T; [|exact N]. destruct T as (-> & _). apply word16_mod, W.
Qed.
Lemma rw_mod x y : s16r x -> s16r y -> y <> 0 -> rewrites (mkOp oMOD 0 0) 0 (w1 x ++ w1 y) (w1 (Z.rem x y)).
Proof.
  intros X Y N. eapply rw_binary; [inlist|apply mod_nonzero; auto|].
  intros r (x' & y' & S & S' & q & m & T & W). apply signed16_val in S, S'; auto. subst.
  apply truncdiv_is in T; [|exact N]. destruct T as (_ & ->). apply word16_mod, W.
Qed.
Lemma rw_umul x y : u16r x -> u16r y -> u16r (x * y) -> rewrites (mkOp oUMUL 0 0) 0 (w1 x ++ w1 y) (w1 (x * y)).
Proof.
  intros X Y P. eapply rw_binary; [inlist| |].
  - rewrite !umod by assumption. unfold u16r in P. lia.
  - intros r W. rewrite !(umod x), !(umod y) in W by assumption. apply word16_mod, W.
Qed.
Lemma udiv_is a b q m : 0 <= m < b -> a = b * q + m -> q = a / b /\ m = a mod b.
Proof. intros H E. split; [apply (Z.div_unique a b q m)|apply (Z.mod_unique a b q m)]; auto. Qed.
Lemma rw_udiv x y : u16r x -> u16r y -> y <> 0 -> rewrites (mkOp oUDIV 0 0) 0 (w1 x ++ w1 y) (w1 (Z.quot x y)).
Proof.
  intros X Y N. eapply rw_binary; [inlist|apply mod_nonzero; auto|].
  intros r (m & E & B). rewrite (umod x), (umod y) in * by assumption.
  destruct (udiv_is _ _ _ _ B E) as (-> & _). unfold u16r in *.
  rewrite Z.quot_div_nonneg by lia. symmetry. apply Z.mod_small.
  split; [apply Z.div_pos; lia|]. apply Z.le_lt_trans with x; [apply Z.div_le_upper_bound; nia|lia].
Qed.
Lemma rw_umod x y : u16r x -> u16r y -> y <> 0 -> rewrites (mkOp oUMOD 0 0) 0 (w1 x ++ w1 y) (w1 (Z.rem x y)).
Proof.
  intros X Y N. eapply rw_binary; [inlist|apply mod_nonzero; auto|].
  intros r (q & E & B). rewrite (umod x), (umod y) in * by assumption.
  destruct (udiv_is _ _ _ _ B E) as (_ & ->). unfold u16r in *.
  rewrite Z.rem_mod_nonneg by lia. symmetry. apply Z.mod_small.
  pose proof (Z.mod_pos_bound x y). lia.
Qed.
Lemma rw_sll x n : 0 <= n <= 15 -> rewrites (mkOp oSLL 0 0) 0 (w1 x ++ w1 n) (w1 (x * 2 ^ n)).
Proof.
  intros N. eapply rw_binary; [inlist| |].
  - cbv beta. rewrite umod; unfold u16r; lia.
  - intros r W. rewrite (umod n) in W by (unfold u16r; lia). apply word16_mod in W. subst r.
    rewrite Z.mul_mod_idemp_l by lia. reflexivity.
Qed.
Lemma rw_srl x n : u16r x -> 0 <= n <= 15 -> rewrites (mkOp oSRL 0 0) 0 (w1 x ++ w1 n) (w1 (x / 2 ^ n)).
Proof.
  intros X N. eapply rw_binary; [inlist| |].
  - cbv beta. rewrite umod; unfold u16r; lia.
  - intros r (m & E & B). rewrite (umod n), (umod x) in * by (unfold u16r in *; lia).
    destruct (udiv_is _ _ _ _ B E) as (-> & _). symmetry. apply Z.mod_small. unfold u16r in X.
    split; [apply Z.div_pos; lia|]. apply Z.le_lt_trans with x; [apply Z.div_le_upper_bound; nia|lia].
Qed.
Lemma rw_sra x n : s16r x -> 0 <= n <= 15 -> rewrites (mkOp oSRA 0 0) 0 (w1 x ++ w1 n) (w1 (x / 2 ^ n)).
Proof.
  intros X N. eapply rw_binary; [inlist| |].
  - cbv beta. rewrite umod; unfold u16r; lia.
  - intros r (x' & q & m & S & E & B & W). rewrite (umod n) in * by (unfold u16r in *; lia).
    apply signed16_val in S; auto. subst x'.
    destruct (udiv_is _ _ _ _ B E) as (-> & _). apply word16_mod, W.
Qed.

Lemma truth_word r P (b : bool) : (b = true <-> P) -> truth r P -> r = (if b then -1 else 0) mod 65536.
Proof. intros H [(T & ->)|(T & ->)]; destruct b; try reflexivity; intuition congruence. Qed.

(** The comparison of signed and of unsigned words *)
Definition int_rel (r : rel) : Z :=
  match r with Equal => oEQU | Unequal => oNEQ | Less => oLT | LessEq => oLTE | Greater => oGT | GreaterEq => oGTE end.
Definition word_rel (r : rel) : Z :=
  match r with Equal => oEQU | Unequal => oNEQ | Less => oULT | LessEq => oULTE | Greater => oUGT | GreaterEq => oUGTE end.

Lemma holds_iff r x y : holds_rel r x y = true <->
  match r with Equal => x = y | Unequal => x <> y | Less => x < y | LessEq => x <= y
             | Greater => x > y | GreaterEq => x >= y end.
Proof. destruct r; cbn [holds_rel]; lia. Qed.

Lemma rw_int_rel r x y : s16r x -> s16r y ->
  rewrites (mkOp (int_rel r) 0 0) 0 (w1 x ++ w1 y) (w1 (if holds_rel r x y then -1 else 0)).
Proof.
  intros X Y.
  destruct r; (eapply rw_binary; [inlist|exact I|]; intros w (x' & y' & S & S' & T);
    apply signed16_val in S, S'; auto; subst; revert T; apply truth_word; cbn [holds_rel]; lia).
Qed.
Lemma s16_cong_eq x y x' y' : u16r x -> u16r y -> signed16 (x mod 65536) x' -> signed16 (y mod 65536) y' ->
  (x' = y' <-> x = y).
Proof.
  intros X Y (A & k & E) (B & j & F). rewrite umod in E, F by assumption. unfold u16r in *. lia.
Qed.
Lemma rw_word_rel r x y : u16r x -> u16r y ->
  rewrites (mkOp (word_rel r) 0 0) 0 (w1 x ++ w1 y) (w1 (if holds_rel r x y then -1 else 0)).
Proof.
  intros X Y. destruct r; (eapply rw_binary; [inlist|exact I|]).
  1,2: intros w (x' & y' & S & S' & T); revert T; apply truth_word;
       pose proof (s16_cong_eq _ _ _ _ X Y S S') as Q; cbn [holds_rel]; clear - Q; lia.
  all: intros w T; rewrite (umod x), (umod y) in T by assumption; revert T; apply truth_word; cbn [holds_rel]; lia.
Qed.

(** ** Long instructions *)

Notation w2 z := [z mod 65536; (z / 65536) mod 65536] (only parsing).
Definition M32 := 4294967296.

Lemma halves z : z mod 65536 + 65536 * ((z / 65536) mod 65536) = z mod M32.
Proof. change M32 with (65536 * 65536). rewrite Z.rem_mul_r by lia. lia. Qed.
Lemma halves_unique lo hi z : 0 <= lo < 65536 -> 0 <= hi < 65536 -> lo + 65536 * hi = z mod M32 ->
  [lo; hi] = w2 z.
Proof.
  intros L H E. pose proof (halves z) as Q. rewrite <- E in Q.
  pose proof (Z.mod_pos_bound z 65536 ltac:(lia)). pose proof (Z.mod_pos_bound (z / 65536) 65536 ltac:(lia)).
  assert (hi = (z / 65536) mod 65536) by lia. assert (lo = z mod 65536) by lia. congruence.
Qed.

Lemma tops_long s x : tops s (w2 x) -> long_at s 0 (x mod M32).
Proof.
  intro T. apply tops2 in T. destruct T as (A & B). exists (x mod 65536), ((x / 65536) mod 65536).
  rewrite halves. auto.
Qed.
Lemma tops_long2 s x y : tops s (w2 x ++ w2 y) -> long_at s 2 (x mod M32) /\ long_at s 0 (y mod M32).
Proof.
  intro T. apply tops4 in T. destruct T as (A & B & C & D). split.
  - exists (x mod 65536), ((x / 65536) mod 65536). rewrite halves. auto.
  - exists (y mod 65536), ((y / 65536) mod 65536). rewrite halves. auto.
Qed.
Lemma long_words s s' n r z : long_result s s' n r -> r = z mod M32 -> stack_effect s s' n (w2 z).
Proof.
  intros (lo & hi & E & Q) R. rewrite <- (halves_unique lo hi z); [exact E| | |congruence].
  - destruct E as (_ & _ & E & _). apply (rd_range s' _ lo (E 0%nat lo eq_refl)).
  - destruct E as (_ & _ & E & _). apply (rd_range s' _ hi (E 1%nat hi eq_refl)).
Qed.

Lemma rw_long_unary c D R x z : In (c, D, R) long_unary_ops -> D (x mod M32) ->
  (forall r, R (x mod M32) r -> r = z mod M32) -> rewrites (mkOp oLONGOP8 c 0) 0 (w2 x) (w2 z).
Proof.
  intros I HD HR s R0 _ T. apply tops_long in T.
  destruct (long_unary_correct c D R s _ 0 I T HD) as (s' & r & E & Hr & F & _).
  exists s'. split; [exact E|]. apply (long_words _ _ _ r); auto.
Qed.
Lemma rw_long_binary c D R x y z : In (c, D, R) long_binary_ops -> D (x mod M32) (y mod M32) ->
  (forall r, R (x mod M32) (y mod M32) r -> r = z mod M32) ->
  rewrites (mkOp oLONGOP8 c 0) 0 (w2 x ++ w2 y) (w2 z).
Proof.
  intros I HD HR s R0 _ T. apply tops_long2 in T. destruct T as (T1 & T2).
  destruct (long_binary_correct c D R s _ _ 0 I (room_sp _ _ R0 ltac:(lia)) T2 T1 HD) as (s' & r & E & Hr & F & _).
  exists s'. split; [exact E|]. apply (long_words _ _ _ r); auto.
Qed.

Definition s32r (z : Z) := -2147483648 <= z <= 2147483647.
Definition u32r (z : Z) := 0 <= z <= 4294967295.
Lemma signed32_val x x' : s32r x -> signed32 (x mod M32) x' -> x' = x.
Proof. intros H S. destruct S as (A & k & E). unfold s32r, M32 in *.
  pose proof (Z.mod_pos_bound x 4294967296). pose proof (Z.div_mod x 4294967296). lia. Qed.
Lemma word32_mod r z : word32 r z -> r = z mod M32.
Proof. intros (H & k & E). subst r. unfold M32. rewrite <- (Z.mod_small (z + 4294967296 * k) 4294967296) by lia.
  replace (z + 4294967296 * k) with (z + k * 4294967296) by lia. now rewrite Z.mod_add by lia. Qed.
Lemma umod32 z : u32r z -> z mod M32 = z.
Proof. unfold u32r, M32. intros. apply Z.mod_small. lia. Qed.
Lemma mod32_nonzero y : s32r y \/ u32r y -> y <> 0 -> y mod M32 <> 0.
Proof. unfold s32r, u32r, M32. intros H N E. apply Z.mod_divide in E; [|lia]. destruct E as (k & E). lia. Qed.
Lemma bitwise32_mod f x y r (g : Z) : bitwise32 f (x mod M32) (y mod M32) r ->
  (forall i, 0 <= i -> Z.testbit g i = f (Z.testbit x i) (Z.testbit y i)) -> r = g mod M32.
Proof.
  intros (B & H) G. apply Z.bits_inj'. intros i Hi.
  change M32 with (2 ^ 32). destruct (Z.lt_ge_cases i 32).
  - rewrite H by lia. rewrite Z.mod_pow2_bits_low by lia.
    change M32 with (2 ^ 32). rewrite !Z.mod_pow2_bits_low by lia. now rewrite G.
  - rewrite Z.mod_pow2_bits_high by lia.
    destruct (Z.eq_dec r 0) as [->|]; [apply Z.bits_0|].
    apply Z.bits_above_log2; [lia|].
    assert (Z.log2 r < 32) by (apply Z.log2_lt_pow2; lia). lia.
Qed.

Ltac dom2 := intros x' y' Sx Sy; apply signed32_val in Sx; [|assumption]; apply signed32_val in Sy; [|assumption]; subst.
Ltac res2 := intros r (x' & y' & Sx & Sy & W); apply signed32_val in Sx; [|assumption]; apply signed32_val in Sy; [|assumption]; subst.

Lemma rw_dneg x : s32r x -> s32r (- x) -> rewrites (mkOp oLONGOP8 nDNEG 0) 0 (w2 x) (w2 (- x)).
Proof.
  intros X P. eapply rw_long_unary; [inlist| |].
  - intros x' S. apply signed32_val in S; auto. subst. exact P.
  - intros r (x' & S & W). apply signed32_val in S; auto. subst. apply word32_mod, W.
Qed.
Lemma rw_dnot x : rewrites (mkOp oLONGOP8 nDNOT 0) 0 (w2 x) (w2 (- x - 1)).
Proof.
  eapply rw_long_unary; [inlist|exact I|]. intros r H.
  apply (bitwise32_mod (fun a _ => negb a) x 0 r (- x - 1)); [exact H|].
  intros i Hi. replace (- x - 1) with (Z.lnot x) by (unfold Z.lnot; lia). apply Z.lnot_spec. exact Hi.
Qed.
Lemma rw_dadd x y : s32r x -> s32r y -> s32r (x + y) -> rewrites (mkOp oLONGOP8 nDADD 0) 0 (w2 x ++ w2 y) (w2 (x + y)).
Proof. intros X Y P. eapply rw_long_binary; [inlist|dom2; exact P|res2; apply word32_mod, W]. Qed.
Lemma rw_dsub x y : s32r x -> s32r y -> s32r (x - y) -> rewrites (mkOp oLONGOP8 nDSUB 0) 0 (w2 x ++ w2 y) (w2 (x - y)).
Proof. intros X Y P. eapply rw_long_binary; [inlist|dom2; exact P|res2; apply word32_mod, W]. Qed.
Lemma rw_dmul x y : s32r x -> s32r y -> s32r (x * y) -> rewrites (mkOp oLONGOP8 nDMUL 0) 0 (w2 x ++ w2 y) (w2 (x * y)).
Proof. intros X Y P. eapply rw_long_binary; [inlist|dom2; exact P|res2; apply word32_mod, W]. Qed.
Lemma quot_exception y : ~ (-2147483648 = -2147483648 /\ y = -1) -> y <> -1.
Proof. lia. Qed.
Lemma rw_ddiv x y : s32r x -> s32r y -> y <> 0 -> s32r (Z.quot x y) ->
  rewrites (mkOp oLONGOP8 nDDIV 0) 0 (w2 x ++ w2 y) (w2 (Z.quot x y)).
Proof.
  intros X Y N P. eapply rw_long_binary; [inlist|dom2|res2].
  - split; [exact N|]. intros (-> & ->). vm_compute in P. destruct P as (_ & P). apply P. reflexivity.
  - destruct W as (q & m & T & W). apply truncdiv_is in T; [|exact N]. destruct T as (-> & _). apply word32_mod, W.
Qed.
Lemma rw_dmod x y : s32r x -> s32r y -> y <> 0 -> s32r (Z.quot x y) ->
  rewrites (mkOp oLONGOP8 nDMOD 0) 0 (w2 x ++ w2 y) (w2 (Z.rem x y)).
Proof.
  intros X Y N P. eapply rw_long_binary; [inlist|dom2|res2].
  - split; [exact N|]. intros (-> & ->). vm_compute in P. destruct P as (_ & P). apply P. reflexivity.
  - destruct W as (q & m & T & W). apply truncdiv_is in T; [|exact N]. destruct T as (_ & ->). apply word32_mod, W.
Qed.
Lemma rw_dumul x y : u32r x -> u32r y -> rewrites (mkOp oLONGOP8 nDUMUL 0) 0 (w2 x ++ w2 y) (w2 (x * y)).
Proof.
  intros X Y. eapply rw_long_binary; [inlist|exact I|].
  intros r W. rewrite (umod32 x), (umod32 y) in W by assumption. apply word32_mod, W.
Qed.
Lemma rw_dudiv x y : u32r x -> u32r y -> y <> 0 -> rewrites (mkOp oLONGOP8 nDUDIV 0) 0 (w2 x ++ w2 y) (w2 (Z.quot x y)).
Proof.
  intros X Y N. eapply rw_long_binary; [inlist|apply mod32_nonzero; auto|].
  intros r (m & E & B). rewrite (umod32 x), (umod32 y) in * by assumption.
  destruct (udiv_is _ _ _ _ B E) as (-> & _). unfold u32r in *.
  rewrite Z.quot_div_nonneg by lia. symmetry. apply Z.mod_small. unfold M32.
  split; [apply Z.div_pos; lia|]. apply Z.le_lt_trans with x; [apply Z.div_le_upper_bound; nia|lia].
Qed.
Lemma rw_dumod x y : u32r x -> u32r y -> y <> 0 -> rewrites (mkOp oLONGOP8 nDUMOD 0) 0 (w2 x ++ w2 y) (w2 (Z.rem x y)).
Proof.
  intros X Y N. eapply rw_long_binary; [inlist|apply mod32_nonzero; auto|].
  intros r (q & E & B). rewrite (umod32 x), (umod32 y) in * by assumption.
  destruct (udiv_is _ _ _ _ B E) as (_ & ->). unfold u32r, M32 in *.
  rewrite Z.rem_mod_nonneg by lia. symmetry. apply Z.mod_small.
  pose proof (Z.mod_pos_bound x y). lia.
Qed.
Ltac dbits2 L := eapply rw_long_binary; [inlist|exact I|]; intros r H; eapply bitwise32_mod; [exact H|];
  intros i Hi; apply L.
Lemma rw_dor x y : rewrites (mkOp oLONGOP8 nDOR 0) 0 (w2 x ++ w2 y) (w2 (Z.lor x y)).
Proof. dbits2 Z.lor_spec. Qed.
Lemma rw_dand x y : rewrites (mkOp oLONGOP8 nDAND 0) 0 (w2 x ++ w2 y) (w2 (Z.land x y)).
Proof. dbits2 Z.land_spec. Qed.
Lemma rw_dxor x y : rewrites (mkOp oLONGOP8 nDXOR 0) 0 (w2 x ++ w2 y) (w2 (Z.lxor x y)).
Proof. dbits2 Z.lxor_spec. Qed.

Lemma s32_cong_eq x y x' y' : (s32r x /\ s32r y) \/ (u32r x /\ u32r y) ->
  signed32 (x mod M32) x' -> signed32 (y mod M32) y' -> (x' = y' <-> x = y).
Proof.
  intros [(X & Y)|(X & Y)] S S'.
  - apply signed32_val in S, S'; auto. subst. tauto.
  - destruct S as (A & k & E), S' as (B & j & F). rewrite umod32 in E, F by assumption. unfold u32r in *. lia.
Qed.

Definition long_rel (r : rel) : Z := match r with Equal => nDEQU | _ => nDNEQ end.
Lemma rw_long_rel r x y : r = Equal \/ r = Unequal -> (s32r x /\ s32r y) \/ (u32r x /\ u32r y) ->
  rewrites (mkOp oLONGOP8 (long_rel r) 0) 0 (w2 x ++ w2 y) (w1 (if holds_rel r x y then -1 else 0)).
Proof.
  intros Q XY s R0 L T. apply tops_long2 in T. destruct T as (T1 & T2).
  cbn [app length] in L. assert (L' : 8 <= sp s < 65536) by (pose proof (room_sp _ _ R0); lia).
  destruct Q as [->| ->].
  - edestruct (long_equ_correct nDEQU) as (s' & r & E & Hr & F & _); [inlist|cbn; tauto|exact R0|exact L'|exact T2|exact T1|].
    exists s'. split; [exact E|]. destruct Hr as (x' & y' & S & S' & T).
    erewrite <- (truth_word r); [exact F| |exact T]. rewrite (holds_iff Equal x y), (s32_cong_eq x y x' y' XY S S'). tauto.
  - edestruct (long_equ_correct nDNEQ) as (s' & r & E & Hr & F & _); [inlist|cbn; tauto|exact R0|exact L'|exact T2|exact T1|].
    exists s'. split; [exact E|]. destruct Hr as (x' & y' & S & S' & T).
    erewrite <- (truth_word r); [exact F| |exact T]. rewrite (holds_iff Unequal x y), (s32_cong_eq x y x' y' XY S S'). tauto.
Qed.

Lemma rw_cnvd x : s16r x -> rewrites (mkOp oLONGOP8 nCNVD 0) 1 (w1 x) (w2 x).
Proof.
  intros X s R L T. apply tops1 in T. cbn [length] in L.
  destruct (convert_up nCNVD s _ 0 ltac:(cbn; tauto) R ltac:(lia) T) as (s' & r & E & Hr & F & _).
  exists s'. split; [exact E|]. apply (long_words _ _ _ r); [exact F|].
  change (nCNVD =? nCNVD) with true in Hr. cbn match in Hr. destruct Hr as (x' & S & W).
  apply signed16_val in S; auto. subst x'. apply word32_mod, W.
Qed.
Lemma rw_ucnvd x : u16r x -> rewrites (mkOp oLONGOP8 nUCNVD 0) 1 (w1 x) (w2 x).
Proof.
  intros X s R L T. apply tops1 in T. cbn [length] in L.
  destruct (convert_up nUCNVD s _ 0 ltac:(cbn; tauto) R ltac:(lia) T) as (s' & r & E & Hr & F & _).
  exists s'. split; [exact E|]. apply (long_words _ _ _ r); [exact F|].
  change (nUCNVD =? nCNVD) with false in Hr. cbn match in Hr. subst r.
  rewrite umod by assumption. symmetry. apply umod32. unfold u16r, u32r in *. lia.
Qed.
Lemma rw_dcnv x : rewrites (mkOp oLONGOP8 nDCNV 0) 0 (w2 x) (w1 x).
Proof.
  intros s R L T. apply tops_long in T. cbn [length] in L. pose proof (room_sp _ _ R ltac:(lia)) as S.
  destruct (convert_down s _ 0 R ltac:(lia) T) as (s' & r & E & W & F & _).
  exists s'. split; [exact E|]. apply word16_mod in W. subst r.
  replace ((x mod M32) mod 65536) with (x mod 65536) in F; [exact F|].
  unfold M32. rewrite (Z.div_mod x 4294967296) at 1 by lia.
  replace (4294967296 * (x / 4294967296) + x mod 4294967296) with (x mod 4294967296 + (65536 * (x / 4294967296)) * 65536) by lia.
  apply Z.mod_add. lia.
Qed.
Lemma rw_dcnv1 x : rewrites (mkOp oLONGOP8 nDCNV 0) 1 (w2 x) (w1 x).
Proof. intros s R. apply rw_dcnv. apply (room_mono s 1 0 R). lia. Qed.
Global Opaque rewrites.
