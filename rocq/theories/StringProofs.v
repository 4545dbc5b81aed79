(** Proofs about the string library: memory *)

From Coq Require Import ZArith Bool List Lia ZifyBool.
From Verif Require Import Words State WordLemmas StateLemmas HeapModel HeapSpec StringModel StringSpec.
Import ListNotations.
Open Scope Z_scope.
Local Ltac Zify.zify_post_hook ::= Z.div_mod_to_equations.

(** ** Lists *)

Lemma len_nil : len [] = 0. Proof. reflexivity. Qed.
Lemma len_cons x l : len (x :: l) = 1 + len l.
Proof. unfold len. cbn [length]. lia. Qed.
Lemma len_app l1 l2 : len (l1 ++ l2) = len l1 + len l2.
Proof. unfold len. rewrite app_length. lia. Qed.
Lemma len_nonneg l : 0 <= len l.
Proof. unfold len. lia. Qed.
Lemma len_firstn n l : 0 <= n -> len (firstn (Z.to_nat n) l) = Z.min n (len l).
Proof. intros. unfold len. rewrite firstn_length. lia. Qed.
Lemma len_skipn n l : 0 <= n -> len (skipn (Z.to_nat n) l) = Z.max 0 (len l - n).
Proof. intros. unfold len. rewrite skipn_length. lia. Qed.
Lemma to_nat_len l : Z.to_nat (len l) = length l.
Proof. unfold len. lia. Qed.

(** ** Characters in memory *)

Lemma chars_app m a l1 l2 : chars_at m a (l1 ++ l2) <-> chars_at m a l1 /\ chars_at m (a + len l1) l2.
Proof.
  revert a. induction l1 as [|x l1 IH]; intros a; cbn [app chars_at].
  - rewrite len_nil, Z.add_0_r. tauto.
  - rewrite IH, len_cons. replace (a + (1 + len l1)) with (a + 1 + len l1) by lia. tauto.
Qed.

Lemma chars_ext m m' a l : (forall b, within a (len l) b -> byte_of m' b = byte_of m b) ->
  chars_at m a l -> chars_at m' a l.
Proof.
  revert a. induction l as [|x l IH]; intros a E H; [exact I|].
  cbn [chars_at] in *. destruct H as [H1 H2]. unfold within in E. rewrite len_cons in E. pose proof (len_nonneg l).
  split; [rewrite E by lia; exact H1|]. apply IH; [|exact H2]. unfold within. intros b Hb. apply E. lia.
Qed.

Lemma chars_move m m' a a' l : (forall k, 0 <= k < len l -> byte_of m' (a' + k) = byte_of m (a + k)) ->
  chars_at m a l -> chars_at m' a' l.
Proof.
  revert a a'. induction l as [|x l IH]; intros a a' E H; [exact I|].
  cbn [chars_at] in *. destruct H as [H1 H2]. rewrite len_cons in E. pose proof (len_nonneg l).
  split.
  - specialize (E 0 ltac:(lia)). rewrite !Z.add_0_r in E. congruence.
  - apply (IH (a + 1)); [|exact H2]. intros k Hk. specialize (E (1 + k) ltac:(lia)).
    replace (a' + 1 + k) with (a' + (1 + k)) by lia. replace (a + 1 + k) with (a + (1 + k)) by lia. exact E.
Qed.

Lemma chars_range m a l : chars_at m a l -> Forall (fun x => 0 <= x < 256) l.
Proof.
  revert a. induction l as [|x l IH]; intros a H; [constructor|]. destruct H as [H1 H2].
  constructor; [subst x; apply byte_range | exact (IH _ H2)].
Qed.

Lemma chars_det m a l1 l2 : length l1 = length l2 -> chars_at m a l1 -> chars_at m a l2 -> l1 = l2.
Proof.
  revert a l2. induction l1 as [|x l1 IH]; intros a [|y l2] E H1 H2; try discriminate E; [reflexivity|].
  destruct H1 as [H1 H1'], H2 as [H2 H2']. f_equal; [congruence|]. apply (IH (a + 1)); auto.
Qed.

Lemma rdb_in s a : 0 <= a < c_ssz (cf s) -> rdb s a = Some (byte_of (mem s) a).
Proof. intros H. unfold rdb. rewrite (proj2 (in_byte_iff s a) H). reflexivity. Qed.

Lemma wrb_in s a v : 0 <= a < c_ssz (cf s) -> wrb s a v = Some (with_mem s (set_byte (mem s) a v)).
Proof. intros H. unfold wrb. rewrite (proj2 (in_byte_iff s a) H). reflexivity. Qed.

Lemma rdbs_ok s a l : str_data s a l -> rdbs (length l) s a = Some l.
Proof.
  revert a. induction l as [|x l IH]; intros a [H [I1 I2]]; [reflexivity|].
  destruct H as [H1 H2]. rewrite len_cons in I2. pose proof (len_nonneg l).
  cbn [length rdbs]. rewrite rdb_in by lia. cbn [bindO].
  rewrite IH by (split; [exact H2 | unfold inside; lia]). cbn [bindO]. rewrite H1. reflexivity.
Qed.

Lemma wrbs_ok l : forall s a, Forall (fun x => 0 <= x < 256) l -> inside s a (len l) ->
  exists m, wrbs s a l = Some (with_mem s m) /\ chars_at m a l /\
            forall b, ~ within a (len l) b -> byte_of m b = byte_of (mem s) b.
Proof.
  induction l as [|x l IH]; intros s a HF [I1 I2].
  - exists (mem s). split; [destruct s; reflexivity|]. split; [exact I | reflexivity].
  - inversion HF as [|y l' Hx HF']; subst y l'. rewrite len_cons in I2. pose proof (len_nonneg l).
    cbn [wrbs]. rewrite wrb_in by lia. cbn [bindO].
    destruct (IH (with_mem s (set_byte (mem s) a x)) (a + 1) HF') as (m & E & C & O).
    { unfold inside. cbn [cf with_mem]. lia. }
    exists m. split; [rewrite E; reflexivity|]. unfold within in *. cbn [mem with_mem] in O. split.
    + cbn [chars_at]. split; [|exact C]. rewrite O by lia. rewrite set_byte_same. apply u8_small. lia.
    + intros b Hb. rewrite len_cons in Hb. rewrite O by lia. apply set_byte_other. lia.
Qed.

(** memcpy *)
Lemma memcpy_ok s dest src l : str_data s src l -> inside s dest (len l) -> apart dest (len l) src (len l) ->
  exists m, memcpy s dest src (len l) = Some (with_mem s m) /\ chars_at m dest l /\
            forall b, ~ within dest (len l) b -> byte_of m b = byte_of (mem s) b.
Proof.
  intros Hd Hi Ha. unfold memcpy, apart in *. pose proof (len_nonneg l).
  destruct (len l <=? 0) eqn:E.
  - assert (length l = O) by (unfold len in E; lia). destruct l; [|discriminate].
    exists (mem s). split; [destruct s; reflexivity|]. split; [exact I | reflexivity].
  - replace (Z.abs (dest - src) <? len l) with false by lia.
    rewrite to_nat_len, (rdbs_ok _ _ _ Hd). cbn [bindO].
    apply wrbs_ok; [|exact Hi]. destruct Hd as [Hd _]. exact (chars_range _ _ _ Hd).
Qed.

(** The loops *)
Lemma copy_up_ok k : forall s src dest i j,
  (k <> O -> inside s (src + i) (Z.of_nat k) /\ inside s (dest + j) (Z.of_nat k)) ->
  (dest + j <= src + i \/ src + i + Z.of_nat k <= dest + j) ->
  exists m, copy_up k s src dest i j = Some (with_mem s m) /\
    (forall t, 0 <= t < Z.of_nat k -> byte_of m (dest + j + t) = byte_of (mem s) (src + i + t)) /\
    forall b, ~ within (dest + j) (Z.of_nat k) b -> byte_of m b = byte_of (mem s) b.
Proof.
  unfold inside, within.
  induction k as [|k IH]; intros s src dest i j Hs Ho; cbn [copy_up].
  - exists (mem s). split; [destruct s; reflexivity|]. split; [intros; lia | reflexivity].
  - specialize (Hs ltac:(discriminate)). destruct Hs as [Hs Hd].
    rewrite rdb_in by lia. cbn [bindO]. rewrite wrb_in by lia. cbn [bindO].
    set (s1 := with_mem s _).
    destruct (IH s1 src dest (i + 1) (j + 1)) as (m & E & C & O);
      try (subst s1; cbn [cf with_mem]; lia).
    exists m. split; [rewrite E; reflexivity|]. subst s1; cbn [mem with_mem] in C, O.
    split.
    + intros t Ht. destruct (Z.eq_dec t 0) as [->|Hn].
      * rewrite O by lia. rewrite !Z.add_0_r, set_byte_same. apply u8_small. apply byte_range.
      * specialize (C (t - 1) ltac:(lia)).
        replace (dest + (j + 1) + (t - 1)) with (dest + j + t) in C by lia.
        replace (src + (i + 1) + (t - 1)) with (src + i + t) in C by lia.
        rewrite C. apply set_byte_other. lia.
    + intros b Hb. rewrite O by lia. apply set_byte_other. lia.
Qed.

Lemma move_down_ok k : forall s base i j,
  (k <> O -> inside s (base + i - Z.of_nat k + 1) (Z.of_nat k) /\ inside s (base + j - Z.of_nat k + 1) (Z.of_nat k)) ->
  i <= j ->
  exists m, move_down k s base i j = Some (with_mem s m) /\
    (forall t, 0 <= t < Z.of_nat k -> byte_of m (base + j - t) = byte_of (mem s) (base + i - t)) /\
    forall b, ~ within (base + j - Z.of_nat k + 1) (Z.of_nat k) b -> byte_of m b = byte_of (mem s) b.
Proof.
  unfold inside, within.
  induction k as [|k IH]; intros s base i j Hs Ho; cbn [move_down].
  - exists (mem s). split; [destruct s; reflexivity|]. split; [intros; lia | reflexivity].
  - specialize (Hs ltac:(discriminate)). destruct Hs as [Hs Hd].
    rewrite rdb_in by lia. cbn [bindO]. rewrite wrb_in by lia. cbn [bindO].
    set (s1 := with_mem s _).
    destruct (IH s1 base (i - 1) (j - 1)) as (m & E & C & O);
      try (subst s1; cbn [cf with_mem]; lia).
    exists m. split; [rewrite E; reflexivity|]. subst s1; cbn [mem with_mem] in C, O.
    split.
    + intros t Ht. destruct (Z.eq_dec t 0) as [->|Hn].
      * rewrite O by lia. rewrite !Z.sub_0_r, set_byte_same. apply u8_small. apply byte_range.
      * specialize (C (t - 1) ltac:(lia)).
        replace (base + (j - 1) - (t - 1)) with (base + j - t) in C by lia.
        replace (base + (i - 1) - (t - 1)) with (base + i - t) in C by lia.
        rewrite C. apply set_byte_other. lia.
    + intros b Hb. rewrite O by lia. apply set_byte_other. lia.
Qed.

(** ** Words *)

Lemma word_u16 s a w : word_at s a w -> u16 (mem s (a / 2)) = w /\ in_word s (a / 2) = true /\ 0 <= w < 65536.
Proof.
  intros (H1 & [H2 H3] & H4).
  assert (E : u16 (mem s (a / 2)) = w).
  { rewrite word_of_bytes. replace (2 * (a / 2)) with a by lia. exact H4. }
  split; [exact E|]. split; [apply in_word_iff; lia|]. rewrite <- E. apply u16_range.
Qed.

Lemma word_rd s a w : word_at s a w -> rd s (a / 2) = Some w.
Proof. intros H. apply word_u16 in H. destruct H as (E & I1 & _). rewrite rd_in by exact I1. rewrite E. reflexivity. Qed.

Lemma word_hget s a k w : a mod 2 = 0 -> word_at s (a + 2 * k) w -> hget s a k = HV w.
Proof.
  intros Ha H. apply word_rd in H. unfold hget. rewrite Ha. cbn [Z.eqb].
  replace ((a + 2 * k) / 2) with (a / 2 + k) in H by lia. rewrite H. reflexivity.
Qed.

Lemma word_ext s s' a w : cf s' = cf s -> byte_of (mem s') a = byte_of (mem s) a ->
  byte_of (mem s') (a + 1) = byte_of (mem s) (a + 1) -> word_at s a w -> word_at s' a w.
Proof. unfold word_at, inside. intros -> -> ->. tauto. Qed.

(** Writing a word *)
Lemma wr_word s a v w0 : word_at s a w0 ->
  exists m, wr s (a / 2) v = Some (with_mem s m) /\ word_at (with_mem s m) a (u16 v) /\
            forall b, ~ within a 2 b -> byte_of m b = byte_of (mem s) b.
Proof.
  intros H. pose proof (word_u16 _ _ _ H) as (_ & Hi & _). destruct H as (H1 & H2 & _).
  exists (upd (mem s) (a / 2) (u16 v)). split; [apply wr_in; exact Hi|]. split.
  - split; [exact H1|]. split; [exact H2|]. cbn [mem with_mem].
    replace a with (2 * (a / 2)) at 2 4 by lia. rewrite byte_of_upd_lo, byte_of_upd_hi.
    pose proof (u16_range v). unfold u8. rewrite (u16_small (u16 v)) by lia. unfold u16 in *. lia.
  - unfold within. intros b Hb. apply byte_of_upd_other. lia.
Qed.

Lemma hput_word s a k v w0 : a mod 2 = 0 -> word_at s (a + 2 * k) w0 ->
  exists m, hput s a k v = HV (with_mem s m) /\ word_at (with_mem s m) (a + 2 * k) (u16 v) /\
            forall b, ~ within (a + 2 * k) 2 b -> byte_of m b = byte_of (mem s) b.
Proof.
  intros Ha H. destruct (wr_word s (a + 2 * k) v w0 H) as (m & E & W & O). exists m. split; [|split; assumption].
  unfold hput. rewrite Ha. cbn [Z.eqb]. replace ((a + 2 * k) / 2) with (a / 2 + k) in E by lia. rewrite E. reflexivity.
Qed.

(** ** Operands *)

Lemma operands_pop s x l : operands s (x :: l) ->
  pop s = Some (x, with_sp s (u16 (sp s - 2))) /\ 0 <= x < 65536 /\
  (l = [] \/ operands (with_sp s (u16 (sp s - 2))) l).
Proof.
  intros [Hs H]. pose proof (H O x eq_refl) as H0. change (Z.of_nat 0) with 0 in H0.
  split; [apply pop_eq; exact H0|]. split; [exact (tos_range _ _ _ H0)|].
  destruct l as [|y l]; [left; reflexivity|]. right. split; [cbn [sp with_sp]; apply u16_range|].
  intros k w Hk. specialize (H (S k) w Hk).
  assert (H1 : tos s 1 <> None -> 2 * 1 <= sp s).
  { destruct (tos s 1) as [v|] eqn:E; [|congruence]. intros _. apply (tos_sp _ _ _ E). }
  pose proof (tos_sp _ _ _ H) as Hsp. unfold tos in *. cbn [sp with_sp].
  rewrite (u16_small (sp s - 2)) by lia. unfold rd, in_word in *. cbn [cf mem with_sp].
  replace ((sp s - 2) / 2 - Z.of_nat k) with (sp s / 2 - Z.of_nat (S k)) by lia. exact H.
Qed.

Lemma discard_0 s : 0 <= sp s < 65536 -> discard s 0 = s.
Proof. intros H. unfold discard. rewrite u16_small by lia. rewrite Z.sub_0_r. destruct s; reflexivity. Qed.

Lemma operand_tos s l k j x : operands s l -> nth_error l (k + j) = Some x ->
  tos (discard s (Z.of_nat k)) (Z.of_nat j) = Some x.
Proof.
  intros [Hs H] Hk. specialize (H _ _ Hk). pose proof (tos_sp _ _ _ H) as Hsp.
  unfold tos, discard, rd, in_word in *. cbn [sp cf mem with_sp]. rewrite (u16_small (sp s - 2 * Z.of_nat k)) by lia.
  replace ((sp s - 2 * Z.of_nat k) / 2 - Z.of_nat j) with (sp s / 2 - Z.of_nat (k + j)) by lia. exact H.
Qed.

Lemma operand_pop s l k x : operands s l -> nth_error l k = Some x ->
  pop (discard s (Z.of_nat k)) = Some (x, discard s (Z.of_nat k + 1)).
Proof.
  intros H Hk. assert (T := operand_tos s l k 0 x H). rewrite Nat.add_0_r in T. specialize (T Hk).
  rewrite (pop_eq _ _ T). f_equal. f_equal. unfold discard, with_sp. cbn [sp mem cf csp fp pc lsp fch].
  f_equal. destruct H as [Hs H]. pose proof (tos_sp _ _ _ (H _ _ Hk)) as Hsp.
  rewrite (u16_small (sp s - 2 * Z.of_nat k)) by lia. f_equal. lia.
Qed.

Lemma operand_range s l k x : operands s l -> nth_error l k = Some x -> 0 <= x < 65536.
Proof. intros [_ H] Hk. exact (tos_range _ _ _ (H _ _ Hk)). Qed.

Ltac pop_one H k :=
  let E := fresh in
  pose proof (operand_pop _ _ k _ H eq_refl) as E; cbn [Z.of_nat Z.add Pos.add Pos.of_succ_nat Pos.succ] in E;
  rewrite E; clear E; cbn [bindo bindO].

Ltac start_pops H :=
  let E := fresh in
  pose proof (operand_pop _ _ 0%nat _ H eq_refl) as E; cbn [Z.of_nat Z.add] in E;
  rewrite (discard_0 _ (proj1 H)) in E; rewrite E; clear E; cbn [bindo bindO].

Lemma discard_popped s m n : popped s (with_mem (discard s n) m) n.
Proof. unfold popped. cbn. repeat (split; [reflexivity|]). reflexivity. Qed.

(** ** Parts of a string *)

Lemma chars_firstn m a k l : 0 <= k -> chars_at m a l -> chars_at m a (firstn (Z.to_nat k) l).
Proof.
  intros Hk H. rewrite <- (firstn_skipn (Z.to_nat k) l) in H. apply chars_app in H. exact (proj1 H).
Qed.

Lemma chars_skipn m a k l : 0 <= k <= len l -> chars_at m a l -> chars_at m (a + k) (skipn (Z.to_nat k) l).
Proof.
  intros Hk H. rewrite <- (firstn_skipn (Z.to_nat k) l) in H. apply chars_app in H. destruct H as [_ H].
  rewrite len_firstn in H by lia. rewrite Z.min_l in H by lia. exact H.
Qed.

Lemma word_chars_len s a w : word_at s a w -> 0 <= w < 65536.
Proof. intros H. apply word_u16 in H. tauto. Qed.

(** Everything about a variable but its value *)
Definition frame_var (s : st) (var buf cap : Z) : Prop :=
  var mod 2 = 0 /\ word_at s (var + 2) buf /\ (word_at s (var + 4) cap \/ word_at s (var + 4) (cap + 32768)).

Lemma str_var_mask s var buf cap v : str_var s var buf cap v ->
  exists al, word_at s (var + 4) al /\ Z.land al HEAP_SIZE_MASK = cap.
Proof.
  intros (_ & _ & H & _ & Hc & _). pose proof (len_nonneg v).
  assert (M : forall x, Z.land x HEAP_SIZE_MASK = x mod 4096).
  { intros x. unfold HEAP_SIZE_MASK. change 0x0fff with (Z.ones 12). rewrite Z.land_ones by lia. reflexivity. }
  destruct H as [H | H]; eexists; (split; [exact H|]); rewrite M; lia.
Qed.

(** The variable after its buffer and its size were written *)
Lemma str_var_after s s' var buf cap v v' :
  str_var s var buf cap v -> cf s' = cf s -> len v' <= cap ->
  word_at s' var (len v') -> chars_at (mem s') buf v' ->
  (forall b, within (var + 2) 4 b -> byte_of (mem s') b = byte_of (mem s) b) ->
  str_var s' var buf cap v'.
Proof.
  intros (H1 & H2 & H3 & H4 & H5 & H6 & H7) Hc Hl Hw Hv Ho. unfold within in Ho.
  assert (X : forall a w, a = var + 2 \/ a = var + 4 -> word_at s a w -> word_at s' a w).
  { intros a w Ha. apply word_ext; [exact Hc | |]; apply Ho; lia. }
  split; [exact Hw|]. split; [apply X; [left; reflexivity | exact H2]|].
  split; [destruct H3 as [H3|H3]; [left|right]; apply X; (right; reflexivity) || exact H3|].
  split; [exact Hv|]. split; [pose proof (len_nonneg v'); lia|]. split; [|exact H7].
  unfold inside in *. rewrite Hc. exact H6.
Qed.

(** ** Delete *)

Lemma delete_ok sbs s var buf cap v pos n :
  operands s [n; pos; var] -> str_var s var buf cap v -> 1 <= pos <= len v + 1 ->
  exists s', string_op sbs s lbDELSUBSTR = Ok s' /\ str_var s' var buf cap (delete v pos n) /\
             popped s s' 3 /\ only s s' (fun b => within buf (len v) b \/ within var 2 b).
Proof.
  intros Ho Hv Hp. change (string_op sbs s lbDELSUBSTR) with (op_delsubstr s). unfold op_delsubstr.
  pose proof (operand_range _ _ 0%nat _ Ho eq_refl) as Hn.
  pose proof (operand_range _ _ 1%nat _ Ho eq_refl) as Hpr.
  start_pops Ho. pop_one Ho 1%nat. pop_one Ho 2%nat.
  assert (Hv' := Hv). destruct Hv' as (Hw & Hb & _ & Hc & Hl & Hi & Ha).
  set (s0 := discard s 3). assert (Ev : var mod 2 = 0) by exact (proj1 Hw).
  change (word_at s0 var (len v)) in Hw. change (word_at s0 (var + 2) buf) in Hb.
  change (chars_at (mem s0) buf v) in Hc.
  rewrite (word_hget s0 var 1 buf Ev Hb). cbn [hbind].
  assert (Hw0 : word_at s0 (var + 2 * 0) (len v)) by (rewrite Z.add_0_r; exact Hw).
  rewrite (word_hget s0 var 0 (len v) Ev Hw0). cbn [hbind hout].
  rewrite (u16_small (pos - 1)) by lia.
  pose proof (len_nonneg v) as Hlv. unfold inside, apart in *.
  set (k := Z.to_nat (len v - (pos - 1 + n))).
  destruct (copy_up_ok k s0 buf buf (pos - 1 + n) (pos - 1)) as (m & E & C & O);
    try (unfold inside; subst k; change (cf s0) with (cf s); lia).
  rewrite E. cbn [bindo]. set (s1 := with_mem s0 m).
  unfold within in O.
  assert (Hw1 : word_at s1 (var + 2 * 0) (len v)).
  { apply (word_ext s0); [reflexivity | | | exact Hw0]; apply O; subst k; lia. }
  rewrite (word_hget s1 var 0 (len v) Ev Hw1). cbn [hbind].
  set (q := if len v <? pos - 1 + n then u16 (len v - (pos - 1)) else n).
  destruct (hput_word s1 var 0 (len v - q) (len v) Ev Hw1) as (m2 & E2 & W2 & O2). rewrite E2. cbn [hout].
  rewrite Z.add_0_r in W2, O2. unfold within in O2. cbn [mem with_mem s1] in O2.
  assert (Hd : u16 (len v - q) = len (delete v pos n)).
  { unfold delete. destruct ((1 <=? pos) && (pos <=? len v)) eqn:Ep.
    - rewrite len_app, len_firstn, len_skipn by lia. subst q. destruct (len v <? pos - 1 + n) eqn:Eq.
      + rewrite (u16_small (len v - (pos - 1))) by lia. rewrite u16_small by lia. lia.
      + rewrite u16_small by lia. lia.
    - subst q. destruct (len v <? pos - 1 + n) eqn:Eq.
      + rewrite (u16_small (len v - (pos - 1))) by lia. rewrite u16_small by lia. lia.
      + rewrite u16_small by lia. lia. }
  assert (Hld : len (delete v pos n) <= len v).
  { unfold delete. destruct ((1 <=? pos) && (pos <=? len v)); [|lia].
    rewrite len_app, len_firstn, len_skipn by lia. lia. }
  exists (with_mem s1 m2). split; [reflexivity|]. split; [|split].
  - apply (str_var_after s _ _ _ _ v); [exact Hv | reflexivity | lia | rewrite <- Hd; exact W2 | |].
    + cbn [mem with_mem]. apply (chars_ext m).
      { unfold within. intros b Hb'. apply O2. lia. }
      unfold delete. destruct ((1 <=? pos) && (pos <=? len v)) eqn:Ep.
      * apply chars_app. rewrite len_firstn by lia. rewrite Z.min_l by lia. split.
        -- apply (chars_ext (mem s0)); [|apply chars_firstn; [lia | exact Hc]].
           unfold within. rewrite len_firstn by lia. intros b Hb'. apply O. lia.
        -- destruct (Z_le_gt_dec (len v) (pos - 1 + n)) as [Hge|Hlt].
           { rewrite (skipn_all2 v) by (unfold len in Hge; lia). exact I. }
           apply (chars_move (mem s0) m (buf + (pos - 1 + n))).
           ++ intros t Ht. rewrite len_skipn in Ht by lia. apply C. subst k. lia.
           ++ apply chars_skipn; [lia | exact Hc].
      * apply (chars_ext (mem s0)); [|exact Hc]. intros b Hb'. apply O. subst k. lia.
    + unfold within. intros b Hb'. cbn [mem with_mem]. rewrite O2 by lia. apply O. subst k. lia.
  - exact (discard_popped s m2 3).
  - intros b Hb'. unfold within in Hb'. cbn [mem with_mem]. rewrite O2 by lia. apply O. subst k. lia.
Qed.
