(** Concatenation, conversion to arrays, comparison, string variables *)

From Coq Require Import ZArith Bool List Lia ZifyBool.
From Verif Require Import Words State WordLemmas StateLemmas HeapModel HeapSpec HeapRegs
  StringModel StringSpec StringProofs StringOps.
Import ListNotations.
Open Scope Z_scope.
Local Ltac Zify.zify_post_hook ::= Z.div_mod_to_equations.

(** Words of the stack as bytes *)
Lemma tos_word s k w : tos s k = Some w -> word_at s (2 * (sp s / 2 - k)) w.
Proof.
  intros H. unfold tos in H. apply rd_some in H. destruct H as [H1 H2]. apply in_word_iff in H1.
  split; [lia|]. split; [unfold inside; lia|]. rewrite H2, word_of_bytes. reflexivity.
Qed.

Lemma word_tos s k w : word_at s (2 * (sp s / 2 - k)) w -> tos s k = Some w.
Proof.
  intros H. apply word_rd in H. unfold tos. replace (2 * (sp s / 2 - k) / 2) with (sp s / 2 - k) in H by lia. exact H.
Qed.

Lemma puttos_word s k v w0 : tos s k = Some w0 ->
  exists m, puttos s k v = Some (with_mem s m) /\ tos (with_mem s m) k = Some (u16 v) /\
            forall b, ~ within (2 * (sp s / 2 - k)) 2 b -> byte_of m b = byte_of (mem s) b.
Proof.
  intros H. apply tos_word in H. destruct (wr_word _ _ v _ H) as (m & E & W & O).
  replace (2 * (sp s / 2 - k) / 2) with (sp s / 2 - k) in E by lia.
  exists m. split; [exact E|]. split; [|exact O]. apply word_tos. exact W.
Qed.

Lemma tos_other s m k w : (forall b, within (2 * (sp s / 2 - k)) 2 b -> byte_of m b = byte_of (mem s) b) ->
  tos s k = Some w -> tos (with_mem s m) k = Some w.
Proof.
  intros E H. apply tos_word in H. apply word_tos. unfold within in E.
  apply (word_ext s); [reflexivity | | | exact H]; cbn [mem with_mem sp]; apply E; lia.
Qed.

Lemma operands3 s a b c : 0 <= sp s < 65536 -> tos s 0 = Some a -> tos s 1 = Some b -> tos s 2 = Some c ->
  operands s [a; b; c].
Proof.
  intros H H0 H1 H2. split; [exact H|]. intros [|[|[|k]]] w Hk; cbn in Hk; try (injection Hk as <-; assumption).
  destruct k; discriminate Hk.
Qed.

Lemma land_mask x : Z.land x HEAP_SIZE_MASK = x mod 4096.
Proof. unfold HEAP_SIZE_MASK. change 0x0fff with (Z.ones 12). rewrite Z.land_ones by lia. reflexivity. Qed.

(** ** Concatenation *)

(** lbSTRCAT: the string [v] below of the top of the stack is the destination,
    its size word is the third word *)
Lemma strcat_ok sbs s sal src x dal dest v :
  operands s [sal; src; len x; dal; dest; len v] -> not_temporary sal ->
  str_data s src x -> chars_at (mem s) dest v -> inside s dest (dal mod 4096) -> len v <= dal mod 4096 ->
  apart dest (dal mod 4096) src (len x) -> apart dest (dal mod 4096) (2 * (sp s / 2 - 5)) 6 ->
  exists s', string_op sbs s lbSTRCAT = Ok s' /\ popped s s' 3 /\
    top_string s' dal dest (if len v + len x <=? dal mod 4096 then v ++ x else v) /\
    only s s' (fun b => within dest (dal mod 4096) b \/ within (2 * (sp s / 2 - 5)) 2 b).
Proof.
  intros Ho Ht Hx Hv Hi Hl Ha Ha2. change (string_op sbs s lbSTRCAT) with (op_strcat s). unfold op_strcat.
  pose proof (operand_range _ _ 0%nat _ Ho eq_refl) as Hal.
  pose proof (operand_range _ _ 2%nat _ Ho eq_refl) as Hlx.
  pose proof (operand_tos s _ 3%nat 0%nat _ Ho eq_refl) as T0.
  pose proof (operand_tos s _ 3%nat 1%nat _ Ho eq_refl) as T1.
  pose proof (operand_tos s _ 3%nat 2%nat _ Ho eq_refl) as T2.
  cbn [Z.of_nat Pos.of_succ_nat Pos.succ] in T0, T1, T2.
  start_pops Ho. pop_one Ho 1%nat. pop_one Ho 2%nat. rewrite T0, T1. cbn [bindo]. rewrite land_mask.
  unfold str_cat. rewrite T2. cbn [bindO].
  assert (Hsp : sp s / 2 - 5 = sp (discard s 3) / 2 - 2).
  { destruct Ho as [Ho1 Ho2]. pose proof (tos_sp _ _ _ (Ho2 5%nat _ eq_refl)). unfold discard. cbn [sp with_sp].
    rewrite u16_small by lia. lia. }
  rewrite Hsp in Ha2. set (cap := dal mod 4096) in *. pose proof (len_nonneg v) as Hlv.
  assert (Hs0 : 0 <= sp (discard s 3) < 65536) by (unfold discard; cbn [sp with_sp]; apply u16_range).
  unfold inside, apart in *.
  destruct (cap <? len x + len v) eqn:E.
  - cbn [bindo]. rewrite consume_plain by assumption. exists (discard s 3). split; [reflexivity|].
    split; [unfold popped; cbn; repeat (split; [reflexivity|]); reflexivity|].
    replace (len v + len x <=? cap) with false by lia. split; [|intros b _; reflexivity].
    split; [apply operands3; assumption|]. split; [exact Hv | unfold inside; change (cf (discard s 3)) with (cf s); lia].
  - replace (len v + len x <=? cap) with true by lia.
    destruct (memcpy_ok (discard s 3) (dest + len v) src x) as (m & E1 & C & O).
    { exact Hx. }
    { unfold inside. change (cf (discard s 3)) with (cf s). lia. }
    { unfold apart. lia. }
    rewrite E1. cbn [bindO]. unfold within in O.
    assert (T2' : tos (with_mem (discard s 3) m) 2 = Some (len v)).
    { apply tos_other; [|exact T2]. unfold within. intros b Hb. apply O. lia. }
    destruct (puttos_word _ 2 (len x + len v) _ T2') as (m2 & E2 & W2 & O2).
    rewrite E2. cbn [bindo]. rewrite consume_plain by assumption.
    unfold within in O2. change (sp (with_mem (discard s 3) m)) with (sp (discard s 3)) in *.
    rewrite u16_small in W2 by lia. cbn [mem with_mem] in O2.
    exists (with_mem (discard s 3) m2). split; [reflexivity|]. split; [apply discard_popped|].
    change (with_mem (with_mem (discard s 3) m) m2) with (with_mem (discard s 3) m2) in *.
    split.
    + split.
      * apply operands3; [exact Hs0 | | |].
        -- apply tos_other; [|exact T0]. unfold within. intros b Hb. rewrite O2 by lia. apply O. lia.
        -- apply tos_other; [|exact T1]. unfold within. intros b Hb. rewrite O2 by lia. apply O. lia.
        -- rewrite len_app, Z.add_comm. exact W2.
      * split; [|unfold inside; rewrite len_app; change (cf (with_mem (discard s 3) m2)) with (cf s); lia].
        cbn [mem with_mem]. apply (chars_ext m).
        { unfold within. rewrite len_app. intros b Hb. apply O2. lia. }
        apply chars_app. split; [|exact C]. apply (chars_ext (mem s)); [|exact Hv].
        unfold within. intros b Hb. apply O. lia.
    + rewrite Hsp. unfold only, within. intros b Hb. cbn [mem with_mem]. rewrite O2 by lia. apply O. lia.
Qed.

(** lbSTRCATC *)
Lemma strcatc_ok sbs s ch dal dest v :
  operands s [ch; dal; dest; len v] -> not_temporary dal ->
  chars_at (mem s) dest v -> inside s dest dal -> len v <= dal -> apart dest dal (2 * (sp s / 2 - 3)) 6 ->
  if len v <? dal then
    exists s', string_op sbs s lbSTRCATC = Ok s' /\ popped s s' 1 /\ top_string s' dal dest (v ++ [ch mod 256]) /\
      only s s' (fun b => within dest dal b \/ within (2 * (sp s / 2 - 3)) 2 b)
  else string_op sbs s lbSTRCATC = Err eSTRSTKOVERFLOW (discard s 1).
Proof.
  intros Ho Ht Hv Hi Hl Ha. change (string_op sbs s lbSTRCATC) with (op_strcatc s). unfold op_strcatc.
  pose proof (operand_range _ _ 1%nat _ Ho eq_refl) as Hal. unfold not_temporary in Ht.
  pose proof (operand_tos s _ 1%nat 0%nat _ Ho eq_refl) as T0.
  pose proof (operand_tos s _ 1%nat 1%nat _ Ho eq_refl) as T1.
  pose proof (operand_tos s _ 1%nat 2%nat _ Ho eq_refl) as T2.
  cbn [Z.of_nat Pos.of_succ_nat Pos.succ] in T0, T1, T2.
  start_pops Ho. rewrite T0, T1. cbn [bindo].
  unfold str_catc. rewrite T2. cbn [bindo].
  assert (Hsp : sp s / 2 - 3 = sp (discard s 1) / 2 - 2).
  { destruct Ho as [Ho1 Ho2]. pose proof (tos_sp _ _ _ (Ho2 3%nat _ eq_refl)). unfold discard. cbn [sp with_sp].
    rewrite u16_small by lia. lia. }
  assert (Hs0 : 0 <= sp (discard s 1) < 65536) by (unfold discard; cbn [sp with_sp]; apply u16_range).
  rewrite Hsp in *. unfold inside, apart in *. pose proof (len_nonneg v) as Hlv.
  destruct (len v <? dal) eqn:E.
  - replace (dal <? len v + 1) with false by lia.
    rewrite wrb_in by (change (cf (discard s 1)) with (cf s); lia). cbn [bindo].
    set (s1 := with_mem (discard s 1) _).
    assert (T2' : tos s1 2 = Some (len v)).
    { apply tos_other; [|exact T2]. unfold within. intros b Hb. apply set_byte_other. lia. }
    destruct (puttos_word _ 2 (len v + 1) _ T2') as (m2 & E2 & W2 & O2). rewrite E2. cbn [bindo].
    change (with_mem s1 m2) with (with_mem (discard s 1) m2) in *. change (sp s1) with (sp (discard s 1)) in *.
    cbn [mem with_mem s1] in O2. unfold within in O2. rewrite u16_small in W2 by lia.
    eexists. split; [reflexivity|]. split; [apply discard_popped|]. split.
    + split.
      * apply operands3; [exact Hs0 | | |].
        -- apply tos_other; [|exact T0]. unfold within. intros b Hb. rewrite O2 by lia. apply set_byte_other. lia.
        -- apply tos_other; [|exact T1]. unfold within. intros b Hb. rewrite O2 by lia. apply set_byte_other. lia.
        -- rewrite len_app, len_cons, len_nil. replace (len v + (1 + 0)) with (len v + 1) by lia. exact W2.
      * split; [|unfold inside; rewrite len_app, len_cons, len_nil; change (cf (with_mem (discard s 1) m2)) with (cf s); lia].
        cbn [mem with_mem]. apply chars_app. split.
        -- apply (chars_ext (mem s)); [|exact Hv]. unfold within. intros b Hb. rewrite O2 by lia. apply set_byte_other. lia.
        -- cbn [chars_at]. split; [|exact I]. rewrite O2 by lia. apply set_byte_same.
    + unfold only, within. intros b Hb. cbn [mem with_mem]. rewrite O2 by lia. apply set_byte_other. lia.
  - replace (dal <? len v + 1) with true by lia. reflexivity.
Qed.

(** ** Arrays of characters *)

Lemma str2bstr_ok sbs x s array asize al buf off v :
  array_op x s array asize al buf off v -> not_temporary al -> str_data s buf v ->
  len v <= asize -> inside s (array + off) asize -> apart (array + off) asize buf (len v) ->
  exists s', string_op sbs s (if x then lbSTR2BSTRX else lbSTR2BSTR) = Ok s' /\
    popped s s' (if x then 6 else 5) /\ chars_at (mem s') (array + off) v /\
    only s s' (within (array + off) asize).
Proof.
  intros Ho Ht Hv Hl Hi Ha. unfold array_op in Ho.
  assert (G : forall n, exists m, str2bstr (discard s n) array asize buf (len v) off = Some (with_mem (discard s n) m) /\
    chars_at m (array + off) v /\ only s (with_mem (discard s n) m) (within (array + off) asize)).
  { intros n. unfold str2bstr. unfold inside, apart in *.
    destruct (memcpy_ok (discard s n) (array + off) buf v) as (m & E & C & O).
    { exact Hv. } { unfold inside. change (cf (discard s n)) with (cf s). lia. } { unfold apart. lia. }
    exists m. split; [exact E|]. split; [exact C|]. unfold only, within in *. intros b Hb. apply O. lia. }
  destruct x.
  - change (string_op sbs s lbSTR2BSTRX) with (op_str2bstr true s). unfold op_str2bstr.
    pose proof (operand_range _ _ 2%nat _ Ho eq_refl) as Hal.
    start_pops Ho. pop_one Ho 1%nat. pop_one Ho 2%nat. pop_one Ho 3%nat. pop_one Ho 4%nat. pop_one Ho 5%nat.
    destruct (G 6) as (m & E & C & O). rewrite E. cbn [bindo]. rewrite consume_plain by assumption.
    eexists. split; [reflexivity|]. split; [apply discard_popped|]. split; assumption.
  - destruct Ho as [-> Ho]. change (string_op sbs s lbSTR2BSTR) with (op_str2bstr false s). unfold op_str2bstr.
    pose proof (operand_range _ _ 2%nat _ Ho eq_refl) as Hal.
    start_pops Ho. pop_one Ho 1%nat. pop_one Ho 2%nat. pop_one Ho 3%nat. pop_one Ho 4%nat.
    destruct (G 5) as (m & E & C & O). rewrite E. cbn [bindo]. rewrite consume_plain by assumption.
    eexists. split; [reflexivity|]. split; [apply discard_popped|]. split; assumption.
Qed.

(** ** Comparison *)

Lemma lex_irrefl v : ~ lex_lt v v.
Proof. induction v as [|x v IH]; intros H; inversion H; subst; [lia | auto]. Qed.

Lemma lex_trans v1 v2 v3 : lex_lt v1 v2 -> lex_lt v2 v3 -> lex_lt v1 v3.
Proof.
  revert v2 v3. induction v1 as [|x v1 IH]; intros v2 v3 H1 H2; inversion H1; subst; inversion H2; subst;
    first [apply lex_nil | apply lex_tail; eapply IH; eassumption | apply lex_head; lia].
Qed.

Lemma lex_total v1 v2 : lex_lt v1 v2 \/ v1 = v2 \/ lex_lt v2 v1.
Proof.
  revert v2. induction v1 as [|x v1 IH]; intros [|y v2].
  - right; left; reflexivity.
  - left; constructor.
  - right; right; constructor.
  - destruct (Z.lt_trichotomy x y) as [H | [H | H]].
    + left; constructor; exact H.
    + subst y. destruct (IH v2) as [H | [H | H]].
      * left; constructor 3; exact H.
      * subst v2; right; left; reflexivity.
      * right; right; constructor 3; exact H.
    + right; right; constructor; exact H.
Qed.

(** The value computed *)
Definition str_cmp (v1 v2 : list Z) : Z :=
  let n := Nat.min (length v1) (length v2) in
  let r := cmp_bytes (firstn n v1) (firstn n v2) in
  if len v1 <? len v2 then if r =? 0 then -1 else r
  else if len v2 <? len v1 then if r =? 0 then 1 else r
  else r.

Lemma str_cmp_cons x v1 y v2 : str_cmp (x :: v1) (y :: v2) = if x =? y then str_cmp v1 v2 else x - y.
Proof.
  unfold str_cmp. cbn [length Nat.min firstn cmp_bytes]. rewrite !len_cons.
  replace (1 + len v1 <? 1 + len v2) with (len v1 <? len v2) by lia.
  replace (1 + len v2 <? 1 + len v1) with (len v2 <? len v1) by lia.
  destruct (x =? y) eqn:E; [reflexivity|].
  replace (x - y =? 0) with false by lia. destruct (len v1 <? len v2), (len v2 <? len v1); reflexivity.
Qed.

Lemma str_cmp_nil_l y v : str_cmp [] (y :: v) = -1.
Proof.
  unfold str_cmp. rewrite len_cons, len_nil. pose proof (len_nonneg v).
  replace (0 <? 1 + len v) with true by lia. reflexivity.
Qed.

Lemma str_cmp_nil_r x v : str_cmp (x :: v) [] = 1.
Proof.
  unfold str_cmp. rewrite len_cons, len_nil. pose proof (len_nonneg v).
  replace (0 <? 1 + len v) with true by lia. replace (1 + len v <? 0) with false by lia. reflexivity.
Qed.

Lemma str_cmp_sign v1 v2 : order_sign (str_cmp v1 v2) v1 v2.
Proof.
  assert (T : forall r, (r < 0 -> lex_lt v1 v2) -> (r = 0 -> v1 = v2) -> (0 < r -> lex_lt v2 v1) -> order_sign r v1 v2).
  { intros r H1 H2 H3. pose proof (Z.lt_trichotomy r 0) as [H | [H | H]].
    - split; [|split]; (split; [intros; try lia; auto |]); intros K; try lia.
      + subst. exfalso. apply (lex_irrefl _ (H1 H)).
      + exfalso. apply (lex_irrefl v1). eapply lex_trans; [exact (H1 H) | exact K].
    - specialize (H2 H). subst v2. split; [|split]; (split; [intros; try lia; auto |]); intros K; try lia;
        exfalso; exact (lex_irrefl _ K).
    - split; [|split]; (split; [intros; try lia; auto |]); intros K; try lia.
      + exfalso. apply (lex_irrefl v1). eapply lex_trans; [exact K | exact (H3 H)].
      + subst. exfalso. apply (lex_irrefl _ (H3 H)). }
  apply T; clear T.
  - revert v2. induction v1 as [|x v1 IH]; intros [|y v2] H.
    + discriminate H.
    + constructor.
    + rewrite str_cmp_nil_r in H. lia.
    + rewrite str_cmp_cons in H. destruct (x =? y) eqn:E.
      * replace y with x by lia. apply lex_tail. apply IH. exact H.
      * apply lex_head. lia.
  - revert v2. induction v1 as [|x v1 IH]; intros [|y v2] H.
    + reflexivity.
    + rewrite str_cmp_nil_l in H. lia.
    + rewrite str_cmp_nil_r in H. lia.
    + rewrite str_cmp_cons in H. destruct (x =? y) eqn:E; [|lia]. f_equal; [lia|]. apply IH. exact H.
  - revert v2. induction v1 as [|x v1 IH]; intros [|y v2] H.
    + discriminate H.
    + rewrite str_cmp_nil_l in H. lia.
    + constructor.
    + rewrite str_cmp_cons in H. destruct (x =? y) eqn:E.
      * replace y with x by lia. apply lex_tail. apply IH. exact H.
      * apply lex_head. lia.
Qed.

Lemma cmp_bytes_range l1 : forall l2, Forall (fun x => 0 <= x < 256) l1 -> Forall (fun x => 0 <= x < 256) l2 ->
  -255 <= cmp_bytes l1 l2 <= 255.
Proof.
  induction l1 as [|x l1 IH]; intros [|y l2] H1 H2; cbn [cmp_bytes]; try lia.
  inversion H1; subst. inversion H2; subst. destruct (x =? y); [apply IH; assumption | lia].
Qed.

Lemma Forall_firstn {A} (P : A -> Prop) n l : Forall P l -> Forall P (firstn n l).
Proof. revert n. induction l; intros [|n] H; cbn; try constructor; inversion H; subst; auto. Qed.

Lemma str_cmp_range v1 v2 : Forall (fun x => 0 <= x < 256) v1 -> Forall (fun x => 0 <= x < 256) v2 ->
  -255 <= str_cmp v1 v2 <= 255.
Proof.
  intros H1 H2. unfold str_cmp. pose proof (cmp_bytes_range _ _ (Forall_firstn _ (Nat.min (length v1) (length v2)) _ H1)
    (Forall_firstn _ (Nat.min (length v1) (length v2)) _ H2)).
  set (r := cmp_bytes _ _) in *. destruct (len v1 <? len v2), (len v2 <? len v1), (r =? 0); lia.
Qed.

Lemma str_data_firstn s a v k : 0 <= k -> str_data s a v -> str_data s a (firstn (Z.to_nat k) v).
Proof.
  intros Hk [H1 [H2 H3]]. split; [apply chars_firstn; assumption|]. unfold inside.
  rewrite len_firstn by lia. lia.
Qed.

Lemma memcmp_ok s a1 a2 v1 v2 n : str_data s a1 v1 -> str_data s a2 v2 -> 0 <= n <= len v1 -> n <= len v2 ->
  memcmp s a1 a2 n = Some (cmp_bytes (firstn (Z.to_nat n) v1) (firstn (Z.to_nat n) v2)).
Proof.
  intros H1 H2 Hn1 Hn2. unfold memcmp.
  pose proof (rdbs_ok _ _ _ (str_data_firstn _ _ _ n (proj1 Hn1) H1)) as R1.
  pose proof (rdbs_ok _ _ _ (str_data_firstn _ _ _ n (proj1 Hn1) H2)) as R2.
  unfold len in *. rewrite firstn_length_le in R1 by lia. rewrite firstn_length_le in R2 by lia.
  rewrite R1. cbn [bindO]. rewrite R2. reflexivity.
Qed.

Lemma consume_ok s a al k s' : consume s a al k = Ok s' -> exists s1, regs s s1 /\ k s1 = Ok s'.
Proof.
  unfold consume. destruct (free_tmp s a al) as [[s1 e]| |] eqn:E; cbn [hout]; intros H; try discriminate H.
  exists s1. split; [exact (free_tmp_regs _ _ _ _ _ E) | exact H].
Qed.

Lemma strcmp_eq sbs s al2 a2 v2 al1 a1 v1 :
  operands s [al2; a2; len v2; al1; a1; len v1] -> str_data s a1 v1 -> str_data s a2 v2 ->
  string_op sbs s lbSTRCMP =
  consume (discard s 5) a1 al1 (fun s => consume s a2 al2 (fun s => s <- puttos s 0 (str_cmp v1 v2) ;; Ok s)).
Proof.
  intros Ho H1 H2. change (string_op sbs s lbSTRCMP) with (op_strcmp s). unfold op_strcmp.
  pose proof (operand_tos s _ 5%nat 0%nat _ Ho eq_refl) as T0. cbn [Z.of_nat Pos.of_succ_nat Pos.succ] in T0.
  start_pops Ho. pop_one Ho 1%nat. pop_one Ho 2%nat. pop_one Ho 3%nat. pop_one Ho 4%nat. rewrite T0. cbn [bindo].
  assert (M : forall n, 0 <= n <= len v1 -> n <= len v2 -> memcmp (discard s 5) a1 a2 n = Some (cmp_bytes (firstn (Z.to_nat n) v1) (firstn (Z.to_nat n) v2))).
  { intros n. apply memcmp_ok; assumption. }
  pose proof (len_nonneg v1) as L1. pose proof (len_nonneg v2) as L2.
  unfold str_cmp. destruct (len v1 <? len v2) eqn:E1; [|destruct (len v2 <? len v1) eqn:E2].
  - rewrite M by lia. cbn [bindO bindo]. replace (Nat.min (length v1) (length v2)) with (Z.to_nat (len v1)) by (unfold len in *; lia). reflexivity.
  - rewrite M by lia. cbn [bindO bindo]. replace (Nat.min (length v1) (length v2)) with (Z.to_nat (len v2)) by (unfold len in *; lia). reflexivity.
  - rewrite M by lia. cbn [bindO bindo]. replace (Nat.min (length v1) (length v2)) with (Z.to_nat (len v1)) by (unfold len in *; lia). reflexivity.
Qed.

Lemma strcmp_range s a1 v1 a2 v2 : str_data s a1 v1 -> str_data s a2 v2 -> s16 (u16 (str_cmp v1 v2)) = str_cmp v1 v2.
Proof.
  intros [H1 _] [H2 _]. pose proof (str_cmp_range _ _ (chars_range _ _ _ H1) (chars_range _ _ _ H2)).
  unfold s16. rewrite (u16_small (u16 (str_cmp v1 v2))) by (pose proof (u16_range (str_cmp v1 v2)); lia).
  unfold u16. destruct (_ <? 32768) eqn:E; lia.
Qed.

(** Whatever becomes of the heap, the result is right *)
Lemma strcmp_result sbs s al2 a2 v2 al1 a1 v1 s' :
  operands s [al2; a2; len v2; al1; a1; len v1] -> str_data s a1 v1 -> str_data s a2 v2 ->
  string_op sbs s lbSTRCMP = Ok s' ->
  exists r, tos s' 0 = Some r /\ order_sign (s16 r) v1 v2 /\ sp s' = sp s - 10.
Proof.
  intros Ho H1 H2 H. rewrite (strcmp_eq _ _ _ _ _ _ _ _ Ho H1 H2) in H.
  apply consume_ok in H. destruct H as (s1 & R1 & H). apply consume_ok in H. destruct H as (s2 & R2 & H).
  pose proof (regs_trans _ _ _ R1 R2) as R. destruct R as (Rc & Rs & _). unfold puttos, wr in H.
  destruct (in_word s2 (sp s2 / 2 - 0)) eqn:E; [|discriminate H]. cbn [bindo] in H. injection H as <-.
  exists (u16 (str_cmp v1 v2)). split; [|split].
  - unfold tos. cbn [sp with_mem]. unfold rd. change (in_word (with_mem s2 _)) with (in_word s2). rewrite E.
    cbn [mem with_mem]. rewrite upd_same. f_equal. rewrite u16_small; [reflexivity | apply u16_range].
  - rewrite (strcmp_range s a1 v1 a2 v2 H1 H2). apply str_cmp_sign.
  - cbn [sp with_mem]. rewrite Rs. unfold discard. cbn [sp with_sp]. destruct Ho as [Ho1 Ho2].
    pose proof (tos_sp _ _ _ (Ho2 5%nat _ eq_refl)). rewrite u16_small by lia. lia.
Qed.

Lemma strcmp_defined sbs s al2 a2 v2 al1 a1 v1 :
  operands s [al2; a2; len v2; al1; a1; len v1] -> str_data s a1 v1 -> str_data s a2 v2 ->
  not_temporary al1 -> not_temporary al2 ->
  exists s', string_op sbs s lbSTRCMP = Ok s' /\ popped s s' 5 /\ only s s' (within (2 * (sp s / 2 - 5)) 2).
Proof.
  intros Ho H1 H2 T1 T2. rewrite (strcmp_eq _ _ _ _ _ _ _ _ Ho H1 H2).
  rewrite consume_plain by (assumption || exact (operand_range _ _ 3%nat _ Ho eq_refl)).
  rewrite consume_plain by (assumption || exact (operand_range _ _ 0%nat _ Ho eq_refl)).
  pose proof (operand_tos s _ 5%nat 0%nat _ Ho eq_refl) as T0. cbn [Z.of_nat Pos.of_succ_nat Pos.succ] in T0.
  destruct (puttos_word _ 0 (str_cmp v1 v2) _ T0) as (m & E & W & O). rewrite E. cbn [bindo].
  eexists. split; [reflexivity|]. split; [apply discard_popped|].
  unfold only. intros b Hb. cbn [mem with_mem]. apply O.
  replace (sp (discard s 5) / 2 - 0) with (sp s / 2 - 5); [exact Hb|].
  unfold discard. cbn [sp with_sp]. destruct Ho as [Ho1 Ho2].
  pose proof (tos_sp _ _ _ (Ho2 5%nat _ eq_refl)). rewrite u16_small by lia. lia.
Qed.
