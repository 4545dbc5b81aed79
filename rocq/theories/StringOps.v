(** Proofs about the operations of the string library *)

From Coq Require Import ZArith Bool List Lia ZifyBool.
From Verif Require Import Words State WordLemmas StateLemmas HeapModel HeapSpec StringModel StringSpec StringProofs.
Import ListNotations.
Open Scope Z_scope.
Local Ltac Zify.zify_post_hook ::= Z.div_mod_to_equations.

(** ** Strings that are not temporary *)

Lemma land_flag al : 0 <= al < 32768 -> Z.land al HEAP_STRING = 0.
Proof.
  intros H. apply Z.bits_inj_0. intros i. rewrite Z.land_spec. unfold HEAP_STRING. change 0x8000 with (2 ^ 15).
  destruct (Z.eq_dec i 15) as [->|Hn].
  - replace (Z.testbit al 15) with false; [reflexivity|].
    symmetry. destruct (Z.eq_dec al 0) as [->|]; [reflexivity|].
    apply Z.bits_above_log2; [lia|]. apply Z.log2_lt_pow2; lia.
  - rewrite Z.pow2_bits_false by lia. apply andb_false_r.
Qed.

Lemma consume_plain s a al k : 0 <= al < 65536 -> not_temporary al -> consume s a al k = k s.
Proof.
  intros H1 H2. unfold not_temporary in H2. unfold consume, free_tmp. rewrite land_flag by lia. reflexivity.
Qed.

(** ** Assignment *)

(** libexec_StrCpy; the words of the variable and the source do not overlap
    the buffer *)
Lemma str_cpy_ok s src var off buf cap v x :
  str_var s (u16 (var + off)) buf cap v -> str_data s src x -> src <> buf -> 
  apart buf cap src (len x) ->
  exists m, str_cpy s src (len x) var off = Some (with_mem s m) /\
    str_var (with_mem s m) (u16 (var + off)) buf cap (truncate cap x) /\
    only s (with_mem s m) (fun b => within buf (Z.min cap (len x)) b \/ within (u16 (var + off)) 2 b).
Proof.
  intros Hv Hx Hne Hap. unfold str_cpy. set (w := u16 (var + off)) in *.
  destruct (str_var_mask _ _ _ _ _ Hv) as (al & Hal & Hm).
  assert (Hv' := Hv). destruct Hv' as (Hw & Hb & _ & Hc & Hl & Hi & Ha).
  assert (Ev : w mod 2 = 0) by exact (proj1 Hw).
  unfold ALLOC_OFF, DATA_OFF, SIZE_OFF. change (4 / 2) with 2.
  rewrite (word_hget s w 2 al Ev Hal), Hm.
  unfold getstack. rewrite (word_rd _ _ _ Hb). cbn [bindO].
  replace (buf =? src) with false by lia.
  pose proof (len_nonneg x) as Hlx. pose proof (len_nonneg v) as Hlv.
  assert (Hlt : len (truncate cap x) = Z.min cap (len x)) by (unfold truncate; rewrite len_firstn by lia; reflexivity).
  replace (if cap <? len x then cap else len x) with (len (truncate cap x)) by (rewrite Hlt; destruct (cap <? len x) eqn:E; lia).
  destruct Hx as [Hx Hxi]. unfold inside, apart in *.
  destruct (memcpy_ok s buf src (truncate cap x)) as (m & E & C & O).
  { split; [apply chars_firstn; [lia | exact Hx] | unfold inside; lia]. }
  { unfold inside; lia. }
  { unfold apart. lia. }
  rewrite E. cbn [bindO]. unfold putstack. rewrite Z.add_0_r.
  unfold within in O.
  assert (Hw1 : word_at (with_mem s m) w (len v)).
  { apply (word_ext s); [reflexivity | | | exact Hw]; apply O; lia. }
  destruct (wr_word (with_mem s m) w (len (truncate cap x)) (len v) Hw1) as (m2 & E2 & W2 & O2).
  rewrite E2. exists m2. split; [reflexivity|]. unfold within in *. cbn [mem with_mem] in O2.
  rewrite u16_small in W2 by lia. split.
  - apply (str_var_after s _ _ _ _ v); [exact Hv | reflexivity | lia | exact W2 | |].
    + cbn [mem with_mem]. apply (chars_ext m); [|exact C]. unfold within. intros b Hb'. apply O2. lia.
    + unfold within. cbn [mem with_mem]. intros b Hb'. rewrite O2 by lia. apply O. lia.
  - intros b Hb'. cbn [mem with_mem]. rewrite O2 by lia. apply O. lia.
Qed.

Lemma str_var_discard s n var buf cap v : str_var s var buf cap v -> str_var (discard s n) var buf cap v.
Proof. intros H; exact H. Qed.

Lemma str_data_discard s n a v : str_data s a v -> str_data (discard s n) a v.
Proof. intros H; exact H. Qed.

Lemma assign_ok sbs f s var off src al x buf cap v :
  assign_op f s var off src al x -> not_temporary al ->
  str_var s (u16 (var + off)) buf cap v -> str_data s src x -> src <> buf -> apart buf cap src (len x) ->
  exists s', string_op sbs s f = Ok s' /\ str_var s' (u16 (var + off)) buf cap (truncate cap x) /\
    popped s s' (assign_words f) /\
    only s s' (fun b => within buf (Z.min cap (len x)) b \/ within (u16 (var + off)) 2 b).
Proof.
  intros Ho Ht Hv Hx Hne Hap.
  assert (G : forall n, exists m, str_cpy (discard s n) src (len x) var off = Some (with_mem (discard s n) m) /\
    str_var (with_mem (discard s n) m) (u16 (var + off)) buf cap (truncate cap x) /\
    only s (with_mem (discard s n) m) (fun b => within buf (Z.min cap (len x)) b \/ within (u16 (var + off)) 2 b)).
  { intros n. exact (str_cpy_ok (discard s n) src var off buf cap v x Hv Hx Hne Hap). }
  destruct Ho as [(-> & -> & Ho) | [(-> & -> & Ho) | [(-> & Ho) | (-> & Ho)]]].
  - change (string_op sbs s lbSTRCPY) with (op_strcpy false s). unfold op_strcpy.
    pose proof (operand_range _ _ 1%nat _ Ho eq_refl) as Hal.
    start_pops Ho. pop_one Ho 1%nat. pop_one Ho 2%nat. pop_one Ho 3%nat.
    destruct (G 4) as (m & E & W & O). rewrite E. cbn [bindo]. rewrite consume_plain by assumption.
    eexists. split; [reflexivity|]. split; [exact W|]. split; [apply (discard_popped s m 4) | exact O].
  - change (string_op sbs s lbSTRCPY2) with (op_strcpy true s). unfold op_strcpy.
    pose proof (operand_range _ _ 0%nat _ Ho eq_refl) as Hal.
    start_pops Ho. pop_one Ho 1%nat. pop_one Ho 2%nat. pop_one Ho 3%nat.
    destruct (G 4) as (m & E & W & O). rewrite E. cbn [bindo]. rewrite consume_plain by assumption.
    eexists. split; [reflexivity|]. split; [exact W|]. split; [apply (discard_popped s m 4) | exact O].
  - change (string_op sbs s lbSTRCPYX) with (op_strcpyx false s). unfold op_strcpyx.
    pose proof (operand_range _ _ 1%nat _ Ho eq_refl) as Hal.
    start_pops Ho. pop_one Ho 1%nat. pop_one Ho 2%nat. pop_one Ho 3%nat. pop_one Ho 4%nat.
    destruct (G 5) as (m & E & W & O). rewrite E. cbn [bindo]. rewrite consume_plain by assumption.
    eexists. split; [reflexivity|]. split; [exact W|]. split; [apply (discard_popped s m 5) | exact O].
  - change (string_op sbs s lbSTRCPYX2) with (op_strcpyx true s). unfold op_strcpyx.
    pose proof (operand_range _ _ 0%nat _ Ho eq_refl) as Hal.
    start_pops Ho. pop_one Ho 1%nat. pop_one Ho 2%nat. pop_one Ho 3%nat. pop_one Ho 4%nat.
    destruct (G 5) as (m & E & W & O). rewrite E. cbn [bindo]. rewrite consume_plain by assumption.
    eexists. split; [reflexivity|]. split; [exact W|]. split; [apply (discard_popped s m 5) | exact O].
Qed.

(** ** Insert *)

Lemma insert_len x v pos : 1 <= pos <= len v + 1 -> len (insert x v pos) = len x + len v.
Proof. intros H. unfold insert. rewrite !len_app, len_firstn, len_skipn by lia. lia. Qed.

Lemma insert_chars m m2 buf src cap v x pos :
  chars_at m buf v -> chars_at m src x -> 1 <= pos <= len v + 1 -> len v <= cap ->
  (forall b, buf <= b < buf + (pos - 1) -> byte_of m2 b = byte_of m b) ->
  (forall t, 0 <= t < Z.min (Z.min cap (len v + len x)) (len x + (pos - 1)) - (pos - 1) ->
             byte_of m2 (buf + (pos - 1) + t) = byte_of m (src + t)) ->
  (forall t, 0 <= t < Z.min cap (len v + len x) - len x - (pos - 1) ->
             byte_of m2 (buf + (pos - 1) + len x + t) = byte_of m (buf + (pos - 1) + t)) ->
  chars_at m2 buf (truncate cap (insert x v pos)).
Proof.
  intros Hc Hx Hp Hl Hhead Hmid Htail. unfold truncate, insert. set (p := pos - 1) in *.
  assert (Hp0 : 0 <= p <= len v) by lia. clearbody p. clear Hp.
  pose proof (len_nonneg x) as Hlx.
  set (v1 := firstn (Z.to_nat p) v). set (v2 := skipn (Z.to_nat p) v).
  assert (L1 : len v1 = p) by (subst v1; rewrite len_firstn by lia; lia).
  assert (L2 : len v2 = len v - p) by (subst v2; rewrite len_skipn by lia; lia).
  assert (Hc1 : chars_at m buf v1) by (apply chars_firstn; [lia | exact Hc]).
  assert (Hc2 : chars_at m (buf + p) v2) by (apply chars_skipn; [lia | exact Hc]).
  clearbody v1 v2. rewrite !firstn_app, !chars_app.
  replace (Z.to_nat cap - length v1)%nat with (Z.to_nat (cap - p)) by (rewrite <- L1; unfold len; lia).
  replace (Z.to_nat (cap - p) - length x)%nat with (Z.to_nat (Z.max 0 (cap - p - len x))) by (unfold len; lia).
  rewrite (len_firstn cap v1) by lia. rewrite (len_firstn (cap - p) x) by lia.
  rewrite (firstn_all2 v1) by (unfold len in L1; lia). rewrite L1. rewrite (Z.min_r cap p) by lia.
  split; [|split].
  - apply (chars_ext m); [|exact Hc1]. unfold within. rewrite L1. exact Hhead.
  - apply (chars_move m m2 src); [|apply chars_firstn; [lia | exact Hx]].
    rewrite len_firstn by lia. intros t Ht'. apply Hmid. lia.
  - destruct (Z_le_gt_dec (cap - p) (len x)) as [Hle|Hgt].
    { replace (Z.to_nat (Z.max 0 (cap - p - len x))) with O by lia. exact I. }
    rewrite Z.min_r by lia. apply (chars_move m m2 (buf + p)); [|apply chars_firstn; [lia | exact Hc2]].
    rewrite len_firstn by lia. rewrite L2. intros t Ht'. apply Htail. lia.
Qed.

Lemma insert_ok sbs s var buf cap v src al x pos :
  operands s [pos; var; al; src; len x] -> str_var s var buf cap v -> str_data s src x -> not_temporary al ->
  apart buf cap src (len x) -> 1 <= pos <= len v + 1 -> len v + len x < 65536 ->
  exists s', string_op sbs s lbINSERTSTR = Ok s' /\ str_var s' var buf cap (truncate cap (insert x v pos)) /\
             popped s s' 5 /\ only s s' (fun b => within buf cap b \/ within var 2 b).
Proof.
  intros Ho Hv Hx Ht Hap Hp Hsum. change (string_op sbs s lbINSERTSTR) with (op_insertstr s). unfold op_insertstr.
  pose proof (operand_range _ _ 0%nat _ Ho eq_refl) as Hpr.
  pose proof (operand_range _ _ 2%nat _ Ho eq_refl) as Hal.
  start_pops Ho. pop_one Ho 1%nat.
  destruct (str_var_mask _ _ _ _ _ Hv) as (dal & Hdal & Hm).
  assert (Hv' := Hv). destruct Hv' as (Hw & Hb & _ & Hc & Hl & Hi & Ha).
  assert (Ev : var mod 2 = 0) by exact (proj1 Hw).
  assert (Hw0 : word_at s (var + 2 * 0) (len v)) by (rewrite Z.add_0_r; exact Hw).
  change (hget (discard s 2)) with (hget s).
  rewrite (word_hget s var 2 dal Ev Hdal), (word_hget s var 1 buf Ev Hb), (word_hget s var 0 (len v) Ev Hw0).
  cbn [hbind hout]. rewrite Hm.
  pop_one Ho 2%nat. pop_one Ho 3%nat. pop_one Ho 4%nat. set (s0 := discard s 5).
  pose proof (len_nonneg x) as Hlx. pose proof (len_nonneg v) as Hlv.
  rewrite (u16_small (pos - 1)) by lia. rewrite (u16_small (len v + len x)) by lia.
  rewrite (u16_small (len x + (pos - 1))) by lia.
  set (total := if cap <? len v + len x then cap else len v + len x).
  assert (Et : total = Z.min cap (len v + len x)) by (subst total; destruct (cap <? len v + len x) eqn:E; lia).
  clearbody total. unfold inside, apart in *.
  set (p := pos - 1) in *. assert (Hp0 : 0 <= p <= len v) by lia.
  set (k1 := Z.to_nat (total - len x - p)).
  destruct (move_down_ok k1 s0 buf (total - len x - 1) (total - 1)) as (m1 & E1 & C1 & O1);
    try (unfold inside; subst k1; change (cf s0) with (cf s); lia).
  rewrite E1. cbn [bindo]. set (s1 := with_mem s0 m1).
  set (stop := if total <? len x + p then total else len x + p).
  assert (Es : stop = Z.min total (len x + p)) by (subst stop; destruct (total <? len x + p) eqn:E; lia).
  clearbody stop. set (k2 := Z.to_nat (stop - p)).
  destruct Hx as [Hx [Hxi1 Hxi2]].
  assert (O1' : forall b, ~ within buf cap b -> byte_of m1 b = byte_of (mem s) b).
  { unfold within in *. intros b Hb'. apply O1. subst k1. lia. }
  destruct (copy_up_ok k2 s1 src buf 0 p) as (m2 & E2 & C2 & O2);
    try (unfold inside; subst k2; change (cf s1) with (cf s); lia).
  rewrite E2. cbn [bindo]. set (s2 := with_mem s1 m2).
  cbn [mem with_mem s1 s0 discard with_sp] in C1, O1, C2, O2.
  unfold within in *.
  assert (Hw2 : word_at s2 (var + 2 * 0) (len v)).
  { apply (word_ext s); [reflexivity | | | exact Hw0]; cbn [mem with_mem s2]; rewrite O2 by (subst k2; lia); apply O1'; lia. }
  destruct (hput_word s2 var 0 total (len v) Ev Hw2) as (m3 & E3 & W3 & O3). rewrite E3. cbn [hout].
  rewrite consume_plain by assumption. rewrite Z.add_0_r in W3, O3. unfold within in O3. cbn [mem with_mem s2] in O3.
  rewrite u16_small in W3 by (clear - Et Hl Hlx Hlv; lia).
  assert (K1 : Z.of_nat k1 = Z.max 0 (total - len x - p)) by (subst k1; clear; lia).
  assert (K2 : Z.of_nat k2 = Z.max 0 (stop - p)) by (subst k2; clear; lia).
  clearbody k1 k2. rewrite K1 in C1, O1. rewrite K2 in C2, O2.
  clear Ev Hpr Hal Hdal Hm Ho K1 K2 E1 E2 E3 Hw Hw0 Hb Hw2.
  assert (Hlt : len (truncate cap (insert x v pos)) = total).
  { unfold truncate. rewrite len_firstn by lia. rewrite insert_len by lia. clear Hap Ha; lia. }
  exists (with_mem s2 m3). split; [reflexivity|]. split; [|split].
  - apply (str_var_after s _ _ _ _ v); [exact Hv | reflexivity | lia | rewrite Hlt; exact W3 | |].
    + cbn [mem with_mem]. apply (chars_ext m2).
      { unfold within. intros b Hb'. apply O3. lia. }
      apply (insert_chars (mem s) m2 buf src); [exact Hc | exact Hx | exact Hp | lia | | |].
      * intros b Hb'. fold p in Hb'. rewrite O2 by (clear Hap Ha Hxi1 Hxi2; lia). apply O1. clear Hap Ha Hxi1 Hxi2; lia.
      * intros t Ht'. fold p in Ht' |- *. rewrite C2 by (clear Hap Ha Hxi1 Hxi2; lia). rewrite Z.add_0_r. apply O1'. clear Ha Hi Es; lia.
      * intros t Ht'. fold p in Ht' |- *. rewrite O2 by (clear Hap Ha Hxi1 Hxi2; lia).
        specialize (C1 (total - 1 - p - len x - t)).
        replace (buf + (total - 1) - (total - 1 - p - len x - t)) with (buf + p + len x + t) in C1 by lia.
        replace (buf + (total - len x - 1) - (total - 1 - p - len x - t)) with (buf + p + t) in C1 by lia.
        apply C1. clear Hap Ha Hxi1 Hxi2; lia.
    + unfold within. intros b Hb'. cbn [mem with_mem]. rewrite O3 by (clear - Hb'; lia). rewrite O2 by (clear Hap Hxi1 Hxi2; lia). apply O1'. clear - Ha Hb'; lia.
  - exact (discard_popped s m3 5).
  - intros b Hb'. cbn [mem with_mem]. rewrite O3 by lia. rewrite O2 by (clear Hap Ha Hxi1 Hxi2; lia). apply O1'. lia.
Qed.
