(** Arithmetic facts about words. *)

From Coq Require Import ZArith Bool List Lia ZifyBool.
From Verif Require Import Words.
Open Scope Z_scope.
Ltac Zify.zify_post_hook ::= Z.div_mod_to_equations.

Lemma u16_range x : 0 <= u16 x < 65536.
Proof. unfold u16; apply Z.mod_pos_bound; lia. Qed.
Lemma u8_range x : 0 <= u8 x < 256.
Proof. unfold u8; apply Z.mod_pos_bound; lia. Qed.
Lemma u32_range x : 0 <= u32 x < 4294967296.
Proof. unfold u32; apply Z.mod_pos_bound; lia. Qed.

Lemma u16_small x : 0 <= x < 65536 -> u16 x = x.
Proof. intros; unfold u16; apply Z.mod_small; lia. Qed.
Lemma u8_small x : 0 <= x < 256 -> u8 x = x.
Proof. intros; unfold u8; apply Z.mod_small; lia. Qed.
Lemma u32_small x : 0 <= x < 4294967296 -> u32 x = x.
Proof. intros; unfold u32; apply Z.mod_small; lia. Qed.

Lemma u16_u16 x : u16 (u16 x) = u16 x.
Proof. apply u16_small, u16_range. Qed.
Lemma u8_u8 x : u8 (u8 x) = u8 x.
Proof. apply u8_small, u8_range. Qed.
Lemma u32_u32 x : u32 (u32 x) = u32 x.
Proof. apply u32_small, u32_range. Qed.

Lemma s16_range x : -32768 <= s16 x < 32768.
Proof. unfold s16; pose proof (u16_range x); destruct (u16 x <? 32768) eqn:E; lia. Qed.
Lemma s8_range x : -128 <= s8 x < 128.
Proof. unfold s8; pose proof (u8_range x); destruct (u8 x <? 128) eqn:E; lia. Qed.
Lemma s32_range x : -2147483648 <= s32 x < 2147483648.
Proof. unfold s32; pose proof (u32_range x); destruct (u32 x <? 2147483648) eqn:E; lia. Qed.

Lemma u16_s16 x : u16 (s16 x) = u16 x.
Proof. unfold s16, u16; destruct (x mod 65536 <? 32768) eqn:E; lia. Qed.
Lemma s16_u16 x : s16 (u16 x) = s16 x.
Proof. unfold s16; rewrite u16_u16; reflexivity. Qed.
Lemma s16_s16 x : s16 (s16 x) = s16 x.
Proof. rewrite <- (s16_u16 (s16 x)), u16_s16, s16_u16; reflexivity. Qed.
Lemma u32_s32 x : u32 (s32 x) = u32 x.
Proof. unfold s32, u32; destruct (x mod 4294967296 <? 2147483648) eqn:E; lia. Qed.
Lemma s32_u32 x : s32 (u32 x) = s32 x.
Proof. unfold s32; rewrite u32_u32; reflexivity. Qed.

Lemma s16_small x : -32768 <= x < 32768 -> s16 x = x.
Proof. intros; unfold s16, u16; destruct (x mod 65536 <? 32768) eqn:E; lia. Qed.
Lemma s32_small x : -2147483648 <= x < 2147483648 -> s32 x = x.
Proof. intros; unfold s32, u32; destruct (x mod 4294967296 <? 2147483648) eqn:E; lia. Qed.

Lemma u16_add_l x y : u16 (u16 x + y) = u16 (x + y).
Proof. unfold u16; apply Zplus_mod_idemp_l. Qed.
Lemma u16_add_r x y : u16 (x + u16 y) = u16 (x + y).
Proof. unfold u16; apply Zplus_mod_idemp_r. Qed.
Lemma u16_sub_l x y : u16 (u16 x - y) = u16 (x - y).
Proof. unfold u16; apply Zminus_mod_idemp_l. Qed.
Lemma u16_sub_r x y : u16 (x - u16 y) = u16 (x - y).
Proof. unfold u16; apply Zminus_mod_idemp_r. Qed.

Lemma u16_eq_iff x y : u16 x = u16 y <-> exists k, x = y + k * 65536.
Proof.
  unfold u16; split.
  - intros H. exists (x / 65536 - y / 65536). lia.
  - intros [k ->]. apply Z.mod_add; lia.
Qed.
Lemma u16_congr x y k : x = y + k * 65536 -> u16 x = u16 y.
Proof. intros ->; unfold u16; apply Z.mod_add; lia. Qed.

Lemma s16_eq_zero x : 0 <= x < 65536 -> (s16 x =? 0) = (x =? 0).
Proof. intros; unfold s16; rewrite u16_small by lia; destruct (x <? 32768) eqn:E; lia. Qed.

Lemma s16_inj x y : 0 <= x < 65536 -> 0 <= y < 65536 -> s16 x = s16 y -> x = y.
Proof.
  intros Hx Hy; unfold s16; rewrite !u16_small by lia.
  destruct (x <? 32768) eqn:E; destruct (y <? 32768) eqn:F; lia.
Qed.

Lemma s16_cases x : 0 <= x < 65536 ->
  (x < 32768 /\ s16 x = x) \/ (32768 <= x /\ s16 x = x - 65536).
Proof. intros; unfold s16; rewrite u16_small by lia; destruct (x <? 32768) eqn:E; lia. Qed.

Lemma pbool_range b : 0 <= pbool b < 65536.
Proof. destruct b; simpl; lia. Qed.

Lemma log2_lt x n : 0 < n -> 0 <= x < 2 ^ n -> Z.log2 x < n.
Proof.
  intros Hn Hx. destruct (Z.eq_dec x 0) as [->|]; [exact Hn|].
  apply Z.log2_lt_pow2; lia.
Qed.
Lemma lt_pow2 x n : 0 < n -> 0 <= x -> Z.log2 x < n -> 0 <= x < 2 ^ n.
Proof.
  intros Hn Hx HL. split; [exact Hx|].
  destruct (Z.eq_dec x 0) as [->|]; [apply Z.pow_pos_nonneg; lia|].
  apply Z.log2_lt_pow2; lia.
Qed.
Lemma land_range x y n : 0 < n -> 0 <= x < 2 ^ n -> 0 <= y < 2 ^ n -> 0 <= Z.land x y < 2 ^ n.
Proof.
  intros Hn Hx Hy. apply lt_pow2; [lia|apply Z.land_nonneg; lia|].
  pose proof (Z.log2_land x y ltac:(lia) ltac:(lia)).
  pose proof (log2_lt x n Hn Hx). lia.
Qed.
Lemma lor_range x y n : 0 < n -> 0 <= x < 2 ^ n -> 0 <= y < 2 ^ n -> 0 <= Z.lor x y < 2 ^ n.
Proof.
  intros Hn Hx Hy. apply lt_pow2; [lia|apply Z.lor_nonneg; lia|].
  rewrite Z.log2_lor by lia.
  pose proof (log2_lt x n Hn Hx). pose proof (log2_lt y n Hn Hy). lia.
Qed.
Lemma lxor_range x y n : 0 < n -> 0 <= x < 2 ^ n -> 0 <= y < 2 ^ n -> 0 <= Z.lxor x y < 2 ^ n.
Proof.
  intros Hn Hx Hy. apply lt_pow2; [lia|apply Z.lxor_nonneg; lia|].
  pose proof (Z.log2_lxor x y ltac:(lia) ltac:(lia)).
  pose proof (log2_lt x n Hn Hx). pose proof (log2_lt y n Hn Hy). lia.
Qed.

Lemma pow16 : 65536 = 2 ^ 16. Proof. reflexivity. Qed.
Lemma pow32 : 4294967296 = 2 ^ 32. Proof. reflexivity. Qed.

Lemma land16 x y : 0 <= x < 65536 -> 0 <= y < 65536 -> 0 <= Z.land x y < 65536.
Proof. rewrite pow16; apply land_range; lia. Qed.
Lemma lor16 x y : 0 <= x < 65536 -> 0 <= y < 65536 -> 0 <= Z.lor x y < 65536.
Proof. rewrite pow16; apply lor_range; lia. Qed.
Lemma lxor16 x y : 0 <= x < 65536 -> 0 <= y < 65536 -> 0 <= Z.lxor x y < 65536.
Proof. rewrite pow16; apply lxor_range; lia. Qed.

Lemma testbit_u16 x n : 0 <= n < 16 -> Z.testbit (u16 x) n = Z.testbit x n.
Proof. intros; unfold u16; rewrite pow16; apply Z.mod_pow2_bits_low; lia. Qed.
Lemma testbit_u16_high x n : 16 <= n -> Z.testbit (u16 x) n = false.
Proof. intros; unfold u16; rewrite pow16; apply Z.mod_pow2_bits_high; lia. Qed.
Lemma testbit_u32 x n : 0 <= n < 32 -> Z.testbit (u32 x) n = Z.testbit x n.
Proof. intros; unfold u32; rewrite pow32; apply Z.mod_pow2_bits_low; lia. Qed.
Lemma testbit_u32_high x n : 32 <= n -> Z.testbit (u32 x) n = false.
Proof. intros; unfold u32; rewrite pow32; apply Z.mod_pow2_bits_high; lia. Qed.

(** Words are equal when their bits are. *)
Lemma word_ext x y : 0 <= x < 65536 -> 0 <= y < 65536 ->
  (forall n, 0 <= n < 16 -> Z.testbit x n = Z.testbit y n) -> x = y.
Proof.
  intros Hx Hy H. apply Z.bits_inj'. intros n Hn.
  destruct (Z_lt_le_dec n 16); [apply H; lia|].
  rewrite <- (u16_small x), <- (u16_small y), !testbit_u16_high by lia. reflexivity.
Qed.
