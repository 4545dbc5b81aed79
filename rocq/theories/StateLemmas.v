(** Laws of the data stack. *)

From Coq Require Import ZArith Bool List Lia ZifyBool.
From Verif Require Import Words State WordLemmas.
Open Scope Z_scope.
Ltac Zify.zify_post_hook ::= Z.div_mod_to_equations.

(** Rewrite bounds in terms of [in_word]. *)
Lemma in_word_iff s i : in_word s i = true <-> 0 <= i < c_ssz (cf s) / 2.
Proof. unfold in_word; lia. Qed.
Lemma in_byte_iff s a : in_byte s a = true <-> 0 <= a < c_ssz (cf s).
Proof. unfold in_byte; lia. Qed.

Lemma in_word_cf s s' i : cf s' = cf s -> in_word s' i = in_word s i.
Proof. unfold in_word; intros ->; reflexivity. Qed.

Lemma rd_some s i v : rd s i = Some v -> in_word s i = true /\ v = u16 (mem s i).
Proof. unfold rd; destruct (in_word s i); [intros [= <-]; auto|discriminate]. Qed.
Lemma rd_range s i v : rd s i = Some v -> 0 <= v < 65536.
Proof. intros [_ ->]%rd_some; apply u16_range. Qed.
Lemma rd_in s i : in_word s i = true -> rd s i = Some (u16 (mem s i)).
Proof. unfold rd; intros ->; reflexivity. Qed.
Lemma wr_in s i v : in_word s i = true -> wr s i v = Some (with_mem s (upd (mem s) i (u16 v))).
Proof. unfold wr; intros ->; reflexivity. Qed.
Lemma wr_some s i v s' : wr s i v = Some s' ->
  in_word s i = true /\ s' = with_mem s (upd (mem s) i (u16 v)).
Proof. unfold wr; destruct (in_word s i); [intros [= <-]; auto|discriminate]. Qed.

Lemma tos_range s k v : tos s k = Some v -> 0 <= v < 65536.
Proof. apply rd_range. Qed.
Lemma tos_some s k v : tos s k = Some v ->
  in_word s (sp s / 2 - k) = true /\ v = u16 (mem s (sp s / 2 - k)).
Proof. apply rd_some. Qed.

Lemma upd_same m i v : upd m i v i = v.
Proof. unfold upd; rewrite Z.eqb_refl; reflexivity. Qed.
Lemma upd_other m i v j : j <> i -> upd m i v j = m j.
Proof. intros; unfold upd; destruct (j =? i) eqn:E; [lia|reflexivity]. Qed.

(** Byte view *)
Lemma byte_range m a : 0 <= byte_of m a < 256.
Proof. unfold byte_of; destruct (a mod 2 =? 0); apply u8_range. Qed.

Lemma set_byte_same m a v : byte_of (set_byte m a v) a = u8 v.
Proof.
  unfold byte_of, set_byte. rewrite upd_same.
  pose proof (u8_range v). pose proof (u16_range (m (a / 2))).
  destruct (a mod 2 =? 0) eqn:E; unfold u8 at 1; [|unfold u16 at 1]; unfold u16 in *; lia.
Qed.

Lemma set_byte_other m a v b : b <> a -> byte_of (set_byte m a v) b = byte_of m b.
Proof.
  intros H. unfold byte_of, set_byte.
  pose proof (u8_range v) as Hv. remember (u8 v) as w eqn:Ew. clear Ew.
  destruct (Z.eq_dec (b / 2) (a / 2)) as [E|E].
  - rewrite E, upd_same. unfold u8, u16.
    generalize (m (a / 2)); intros x.
    destruct (a mod 2 =? 0) eqn:Ea; destruct (b mod 2 =? 0) eqn:Eb; lia.
  - rewrite upd_other by exact E. reflexivity.
Qed.

Lemma word_of_bytes m i :
  u16 (m i) = byte_of m (2 * i) + 256 * byte_of m (2 * i + 1).
Proof.
  unfold byte_of.
  replace ((2 * i) mod 2 =? 0) with true by lia.
  replace ((2 * i + 1) mod 2 =? 0) with false by lia.
  replace (2 * i / 2) with i by lia. replace ((2 * i + 1) / 2) with i by lia.
  unfold u8, u16. lia.
Qed.

Lemma byte_of_upd_other m i v a : a / 2 <> i -> byte_of (upd m i v) a = byte_of m a.
Proof. intros H; unfold byte_of; rewrite upd_other by exact H; reflexivity. Qed.

Lemma byte_of_upd_lo m i v : byte_of (upd m i v) (2 * i) = u8 v.
Proof.
  unfold byte_of. replace ((2 * i) mod 2 =? 0) with true by lia.
  replace (2 * i / 2) with i by lia. rewrite upd_same. reflexivity.
Qed.
Lemma byte_of_upd_hi m i v : byte_of (upd m i v) (2 * i + 1) = u8 (u16 v / 256).
Proof.
  unfold byte_of. replace ((2 * i + 1) mod 2 =? 0) with false by lia.
  replace ((2 * i + 1) / 2) with i by lia. rewrite upd_same. reflexivity.
Qed.

(** A word is unchanged by a byte write elsewhere. *)
Lemma word_set_byte_other m a v i : a / 2 <> i -> set_byte m a v i = m i.
Proof. intros H; unfold set_byte; apply upd_other; lia. Qed.

(** Pop and push *)
Lemma pop_some s v s' : pop s = Some (v, s') ->
  tos s 0 = Some v /\ s' = with_sp s (u16 (sp s - 2)).
Proof.
  unfold pop, tos. replace (sp s / 2 - 0) with (sp s / 2) by lia.
  destruct (rd s (sp s / 2)); [intros [= <- <-]; auto|discriminate].
Qed.
Lemma pop_eq s v : tos s 0 = Some v -> pop s = Some (v, with_sp s (u16 (sp s - 2))).
Proof.
  unfold pop, tos. replace (sp s / 2 - 0) with (sp s / 2) by lia. intros ->. reflexivity.
Qed.
Lemma pop_none s : tos s 0 = None -> pop s = None.
Proof.
  unfold pop, tos. replace (sp s / 2 - 0) with (sp s / 2) by lia. intros ->. reflexivity.
Qed.


Lemma tos_drop s j k : 0 <= 2 * j <= sp s -> sp s < 65536 ->
  tos (with_sp s (u16 (sp s - 2 * j))) k = tos s (j + k).
Proof.
  intros H1 H2. unfold tos, rd, in_word; cbn [sp cf mem with_sp].
  rewrite u16_small by lia.
  replace ((sp s - 2 * j) / 2 - k) with (sp s / 2 - (j + k)) by lia. reflexivity.
Qed.

(** A present operand below the top means that the stack pointer is not at the
    bottom. *)
Lemma tos_sp s k v : tos s k = Some v -> 2 * k <= sp s.
Proof.
  intros [H _]%tos_some. apply in_word_iff in H. lia.
Qed.
