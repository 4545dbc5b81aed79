(** Search, substrings, string variables *)

From Coq Require Import ZArith Bool List Lia ZifyBool.
From Verif Require Import Words State WordLemmas StateLemmas HeapModel HeapSpec HeapRegs HeapProofs HeapInv HeapMain
  StringModel StringSpec StringProofs StringOps StringOps2.
Import ListNotations.
Open Scope Z_scope.
Local Ltac Zify.zify_post_hook ::= Z.div_mod_to_equations.

(** ** Search *)

Lemma is_prefix_spec x : forall v, is_prefix x v = true <-> exists r, v = x ++ r.
Proof.
  induction x as [|a x IH]; intros v; cbn [is_prefix].
  - split; [intros _; exists v; reflexivity | reflexivity].
  - destruct v as [|b v].
    + split; [discriminate | intros [r H]; discriminate H].
    + rewrite andb_true_iff, IH, Z.eqb_eq. split.
      * intros [-> [r ->]]. exists r. reflexivity.
      * intros [r H]. injection H as -> ->. split; [reflexivity | exists r; reflexivity].
Qed.

(** Occurrence at an offset *)
Lemma occurs_skipn x v i : 1 <= i -> (occurs x v i <-> i <= len v + 1 /\ exists r, skipn (Z.to_nat (i - 1)) v = x ++ r).
Proof.
  intros Hi. split.
  - intros (v1 & v2 & -> & E). rewrite len_app. split; [pose proof (len_nonneg (x ++ v2)); lia|].
    exists v2. replace (Z.to_nat (i - 1)) with (length v1) by (unfold len in E; lia).
    rewrite skipn_app, skipn_all, Nat.sub_diag. reflexivity.
  - intros [Hl [r H]]. exists (firstn (Z.to_nat (i - 1)) v), r. split.
    + rewrite <- H. symmetry. apply firstn_skipn.
    + rewrite len_firstn by lia. lia.
Qed.

Lemma strstr_spec x : forall v, match strstr v x with
  | Some k => 0 <= k <= len v /\ (exists r, skipn (Z.to_nat k) v = x ++ r) /\
              forall j, 0 <= j < k -> ~ exists r, skipn (Z.to_nat j) v = x ++ r
  | None => forall j, 0 <= j <= len v -> ~ exists r, skipn (Z.to_nat j) v = x ++ r
  end.
Proof.
  induction v as [|a v IH]; cbn [strstr].
  - destruct (is_prefix x []) eqn:E.
    + apply is_prefix_spec in E. split; [cbn; lia|]. split; [exact E | intros j Hj; lia].
    + intros j Hj [r H]. rewrite skipn_nil in H. assert (is_prefix x [] = true) by (apply is_prefix_spec; exists r; exact H). congruence.
  - destruct (is_prefix x (a :: v)) eqn:E.
    + apply is_prefix_spec in E. pose proof (len_nonneg v). split; [rewrite len_cons; lia|]. split; [exact E | intros j Hj; lia].
    + assert (N0 : ~ exists r, a :: v = x ++ r) by (intros [r H]; assert (is_prefix x (a :: v) = true) by (apply is_prefix_spec; exists r; exact H); congruence).
      destruct (strstr v x) as [k|].
      * destruct IH as (I1 & I2 & I3). rewrite len_cons. split; [lia|]. split.
        -- replace (Z.to_nat (1 + k)) with (S (Z.to_nat k)) by lia. exact I2.
        -- intros j Hj. destruct (Z.eq_dec j 0) as [->|]; [exact N0|].
           replace (Z.to_nat j) with (S (Z.to_nat (j - 1))) by lia. apply I3. lia.
      * rewrite len_cons. intros j Hj. destruct (Z.eq_dec j 0) as [->|]; [exact N0|].
        replace (Z.to_nat j) with (S (Z.to_nat (j - 1))) by lia. apply IH. lia.
Qed.

Lemma skipn_add {A} (i j : nat) (l : list A) : skipn i (skipn j l) = skipn (j + i) l.
Proof.
  revert l. induction j as [|j IH]; intros l; [reflexivity|]. destruct l as [|a l]; [destruct i; reflexivity|]. apply IH.
Qed.

Lemma strstr_first x v pos : 1 <= pos <= len v + 1 ->
  first_occurrence x v pos (match strstr (skipn (Z.to_nat (pos - 1)) v) x with Some k => pos + k | None => 0 end).
Proof.
  intros Hp. pose proof (strstr_spec x (skipn (Z.to_nat (pos - 1)) v)) as H.
  rewrite len_skipn in H by lia. rewrite Z.max_r in H by lia.
  assert (Sk : forall k, 0 <= k -> skipn (Z.to_nat k) (skipn (Z.to_nat (pos - 1)) v) = skipn (Z.to_nat (pos + k - 1)) v).
  { intros k Hk. rewrite skipn_add. f_equal. lia. }
  destruct (strstr _ x) as [k|].
  - destruct H as (H1 & H2 & H3). left. split; [lia|]. split.
    + apply occurs_skipn; [lia|]. split; [lia|]. rewrite Sk in H2 by lia. exact H2.
    + intros i Hi Ho. apply occurs_skipn in Ho; [|lia]. destruct Ho as [_ Ho]. apply (H3 (i - pos)); [lia|].
      rewrite Sk by lia. replace (pos + (i - pos) - 1) with (i - 1) by lia. exact Ho.
  - right. split; [reflexivity|]. intros i Hi Ho. apply occurs_skipn in Ho; [|lia]. destruct Ho as [Hle Ho].
    apply (H (i - pos)); [lia|]. rewrite Sk by lia. replace (pos + (i - pos) - 1) with (i - 1) by lia. exact Ho.
Qed.

Lemma cstr_ok s l : forall n a, (length l < n)%nat -> chars_at (mem s) a l -> ~ In 0 l ->
  inside s a (len l + 1) -> byte_of (mem s) (a + len l) = 0 -> cstr n s a = Some l.
Proof.
  induction l as [|x l IH]; intros n a Hn Hc H0 [I1 I2] Hz.
  - destruct n; [inversion Hn|]. cbn [cstr]. rewrite len_nil in *. rewrite rdb_in by lia. cbn [bindO].
    rewrite Z.add_0_r in Hz. rewrite Hz. reflexivity.
  - destruct n; [inversion Hn|]. cbn [cstr]. rewrite len_cons in *. pose proof (len_nonneg l).
    rewrite rdb_in by lia. cbn [bindO]. destruct Hc as [Hc1 Hc2]. rewrite Hc1.
    replace (x =? 0) with false by (symmetry; apply Z.eqb_neq; intros ->; apply H0; left; reflexivity).
    rewrite (IH n (a + 1)); [reflexivity | cbn [length] in Hn; lia | exact Hc2 | intros K; apply H0; right; exact K | unfold inside; lia |].
    replace (a + 1 + len l) with (a + (1 + len l)) by lia. exact Hz.
Qed.

Lemma mk_cstring_ok s src v keep : str_data s src v -> 0 <= csp s -> c_spb (cf s) <= c_ssz (cf s) -> c_ssz (cf s) <= 65535 ->
  csp s + len v + 1 < c_spb (cf s) -> apart (csp s) (len v) src (len v) ->
  exists m, mk_cstring s src (len v) keep =
              Some (with_mem (if keep then with_csp s (csp s + len v + 1) else s) m, csp s) /\
            chars_at m (csp s) v /\ byte_of m (csp s + len v) = 0 /\
            forall b, ~ within (csp s) (len v + 1) b -> byte_of m b = byte_of (mem s) b.
Proof.
  intros Hd H0 H1 H2 H3 Ha. unfold mk_cstring. pose proof (len_nonneg v) as Hl.
  replace (c_spb (cf s) <=? csp s + len v + 1) with false by lia.
  set (s1 := if keep then with_csp s (u16 (csp s + len v + 1)) else s).
  assert (E1 : s1 = if keep then with_csp s (csp s + len v + 1) else s) by (subst s1; destruct keep; [rewrite u16_small by lia|]; reflexivity).
  assert (M1 : mem s1 = mem s) by (subst s1; destruct keep; reflexivity).
  assert (C1 : cf s1 = cf s) by (subst s1; destruct keep; reflexivity).
  rewrite <- E1. clearbody s1. clear E1.
  destruct (memcpy_ok s1 (csp s) src v) as (m & E & C & O).
  { unfold str_data, inside in *. rewrite M1, C1. exact Hd. }
  { unfold inside. rewrite C1. lia. }
  { exact Ha. }
  rewrite E. cbn [bindO]. rewrite wrb_in by (cbn [cf with_mem]; rewrite C1; lia). cbn [bindO mem with_mem].
  exists (set_byte m (csp s + len v) 0). split; [reflexivity|]. split; [|split].
  - apply (chars_ext m); [|exact C]. unfold within. intros b Hb. apply set_byte_other. lia.
  - apply set_byte_same.
  - unfold within in *. intros b Hb. rewrite set_byte_other by lia. rewrite O by lia. rewrite M1. reflexivity.
Qed.

Lemma push_eq s v : 0 <= sp s -> 2 + sp s < 65536 -> sp s + 2 < c_ssz (cf s) / 2 * 2 ->
  push s v = Some (with_mem (with_sp s (sp s + 2)) (upd (mem s) ((sp s + 2) / 2) (u16 v))).
Proof.
  intros H1 H2 H3. unfold push. rewrite u16_small by lia. cbn [sp with_sp]. rewrite wr_in; [reflexivity|].
  apply in_word_iff. cbn [cf with_sp]. lia.
Qed.

(** What the search modifies: the copies of the strings above of csp and the
    word for the result *)
Lemma find_ok sbs s pos al a v sal sa x :
  operands s [pos; al; a; len v; sal; sa; len x] -> str_data s a v -> str_data s sa x ->
  not_temporary al -> not_temporary sal -> ~ In 0 v -> ~ In 0 x ->
  string_map (cf s) -> 0 <= csp s -> csp s + len v + len x + 2 < c_spb (cf s) ->
  apart (csp s) (len v + len x + 2) a (len v) -> apart (csp s) (len v + len x + 2) sa (len x) ->
  1 <= pos <= len v + 1 ->
  exists s' r, string_op sbs s lbFINDSUBSTR = Ok s' /\ tos s' 0 = Some r /\ first_occurrence x v pos r /\
    popped s s' 6 /\
    only s s' (fun b => within (csp s) (len v + len x + 2) b \/ within (2 * (sp s / 2 - 6)) 2 b).
Proof.
  intros Ho Hv Hx Ht1 Ht2 Hv0 Hx0 (_ & Hm1 & Hm2) Hc Hroom Ha Hb Hp.
  change (string_op sbs s lbFINDSUBSTR) with (op_findsubstr s). unfold op_findsubstr.
  pose proof (operand_range _ _ 1%nat _ Ho eq_refl) as Hal.
  pose proof (operand_range _ _ 4%nat _ Ho eq_refl) as Hsal.
  assert (Hsp : 12 <= sp s < 65536 /\ sp s / 2 - 6 < c_ssz (cf s) / 2).
  { destruct Ho as [Ho1 Ho2]. pose proof (Ho2 6%nat _ eq_refl) as T. pose proof (tos_sp _ _ _ T).
    unfold tos in T. apply rd_some in T. destruct T as [T _]. apply in_word_iff in T. lia. }
  start_pops Ho. pop_one Ho 1%nat. pop_one Ho 2%nat. pop_one Ho 3%nat. pop_one Ho 4%nat. pop_one Ho 5%nat. pop_one Ho 6%nat.
  set (s0 := discard s 7). change (csp s0) with (csp s).
  pose proof (len_nonneg v) as Lv. pose proof (len_nonneg x) as Lx.
  assert (Ax : apart (csp s) (len v) a (len v)) by (unfold apart in *; lia).
  destruct (mk_cstring_ok s0 a v true Hv Hc Hm1 Hm2 ltac:(change (cf s0) with (cf s); change (csp s0) with (csp s); lia) Ax)
    as (m1 & E1 & C1 & Z1 & O1).
  rewrite E1. cbn [bindo]. change (csp s0) with (csp s) in *. cbn [mem with_mem with_csp] in O1.
  set (s1 := with_mem (with_csp s0 (csp s + len v + 1)) m1).
  assert (Hx1 : str_data s1 sa x).
  { destruct Hx as [Hx Hxi]. split; [|exact Hxi]. apply (chars_ext (mem s)); [|exact Hx].
    intros b Hb'. cbn [mem with_mem s1]. apply O1. unfold within, apart in *. lia. }
  destruct (mk_cstring_ok s1 sa x false Hx1) as (m2 & E2 & C2 & Z2 & O2).
  { cbn [csp with_csp with_mem s1]. lia. } { exact Hm1. } { exact Hm2. }
  { cbn [csp with_csp with_mem s1 cf s0 discard with_sp]. lia. }
  { cbn [csp with_csp with_mem s1]. unfold apart in *. lia. }
  rewrite E2. cbn [bindo]. change (csp s1) with (csp s + len v + 1) in *. unfold within in *.
  cbn [mem with_mem s1] in O2.
  replace (pos <? 1) with false by lia. unfold NULL.
  replace ((csp s =? -1) || (csp s + len v + 1 =? -1)) with false by lia.
  set (s2 := with_mem s1 m2).
  assert (D1 : cstr cstr_bound s2 (csp s + pos - 1) = Some (skipn (Z.to_nat (pos - 1)) v)).
  { assert (Hin : incl (skipn (Z.to_nat (pos - 1)) v) v).
    { intros y Hy. rewrite <- (firstn_skipn (Z.to_nat (pos - 1)) v). apply in_or_app. right. exact Hy. }
    assert (Ls : len (skipn (Z.to_nat (pos - 1)) v) = len v - (pos - 1)) by (rewrite len_skipn by lia; lia).
    apply cstr_ok.
    - unfold cstr_bound. unfold len in Ls. unfold len in Hroom. lia.
    - cbn [mem with_mem s2]. replace (csp s + pos - 1) with (csp s + (pos - 1)) by lia.
      apply (chars_ext m1); [|apply chars_skipn; [lia | exact C1]]. unfold within. rewrite Ls. intros b Hb'. apply O2. lia.
    - intros K. apply Hv0. apply Hin. exact K.
    - unfold inside. cbn [cf with_mem s2 s1 with_csp s0 discard with_sp]. rewrite Ls. lia.
    - cbn [mem with_mem s2]. rewrite Ls. replace (csp s + pos - 1 + (len v - (pos - 1))) with (csp s + len v) by lia.
      rewrite O2 by lia. exact Z1. }
  assert (D2 : cstr cstr_bound s2 (csp s + len v + 1) = Some x).
  { apply cstr_ok.
    - unfold cstr_bound. unfold len in Hroom. lia.
    - exact C2.
    - exact Hx0.
    - unfold inside. cbn [cf with_mem s2 s1 with_csp s0 discard with_sp]. lia.
    - exact Z2. }
  rewrite D1. cbn [bindO]. rewrite D2. cbn [bindO bindo].
  pose proof (strstr_first x v pos Hp) as Hf. pose proof (strstr_spec x (skipn (Z.to_nat (pos - 1)) v)) as Hr.
  rewrite len_skipn in Hr by lia.
  set (r := match strstr (skipn (Z.to_nat (pos - 1)) v) x with Some k => pos + k | None => 0 end) in *.
  assert (Rr : 0 <= r < 65536) by (subst r; destruct (strstr _ x); lia).
  clearbody r. clear Hr.
  (* the result *)
  assert (Hs7 : u16 (sp s - 14 + 2) = sp s - 12) by (rewrite u16_small by lia; lia).
  assert (P : push (with_csp s2 (csp s)) r =
              Some (with_mem (with_csp (with_sp s2 (sp s - 12)) (csp s)) (upd m2 ((sp s - 12) / 2) (u16 r)))).
  { unfold push. cbn [sp with_csp s2 with_mem s1 s0 discard with_sp]. rewrite u16_add_l.
    change (2 * 7) with 14. rewrite Hs7. rewrite wr_in; [reflexivity|]. apply in_word_iff.
    cbn [cf with_csp s2 with_mem s1 s0 discard with_sp]. lia. }
  rewrite P. cbn [bindo]. rewrite !consume_plain by assumption. replace (eNOERROR =? eNOERROR) with true by reflexivity.
  eexists. exists r. split; [reflexivity|]. split; [|split; [exact Hf|split]].
  - unfold tos. cbn [sp with_csp with_mem with_sp]. rewrite Z.sub_0_r. rewrite rd_in.
    + cbn [mem with_mem]. rewrite upd_same, u16_u16, u16_small by lia. reflexivity.
    + apply in_word_iff. cbn [cf with_csp s2 with_mem s1 s0 discard with_sp]. lia.
  - unfold popped. cbn. change (2 * 6) with 12. rewrite u16_small by lia. repeat (split; [reflexivity|]). reflexivity.
  - unfold only. intros b Hb'. cbn [mem with_mem with_csp with_sp].
    rewrite byte_of_upd_other by lia. rewrite O2 by lia. apply O1. lia.
Qed.

(** ** String variables *)

(** Creating a variable below of spb *)
Lemma strinit_ok sbs s var n s' b : operands s [var; n] -> string_op sbs s lbSTRINIT = Ok s' -> word_at s' (var + 2) b ->
  n <= 65534 -> 0 <= csp s < 65536 -> c_spb (cf s) <= 65535 -> var mod 2 = 0 ->
  csp s <= b /\ b + n <= csp s' /\ csp s' <= c_spb (cf s) /\ cf s' = cf s.
Proof.
  intros Ho H Hw Hn Hc Hspb Hev. change (string_op sbs s lbSTRINIT) with (op_strinit s) in H. unfold op_strinit in H.
  pose proof (operand_range _ _ 1%nat _ Ho eq_refl) as Hnr. pose proof (operand_range _ _ 0%nat _ Ho eq_refl) as Hvr.
  pose proof (operand_pop _ _ 0%nat _ Ho eq_refl) as P0. pose proof (operand_pop _ _ 1%nat _ Ho eq_refl) as P1.
  cbn [Z.of_nat Z.add Pos.of_succ_nat Pos.add Pos.succ] in P0, P1. rewrite (discard_0 _ (proj1 Ho)) in P0.
  rewrite P0 in H. cbn [bindo] in H. rewrite P1 in H. cbn [bindo] in H. unfold str_init in H.
  unfold int_alignup in H. rewrite (u16_small ((n + 1) / 2 * 2)) in H by lia.
  set (size := (n + 1) / 2 * 2) in *. assert (Hsz : n <= size <= n + 1 /\ size mod 2 = 0) by (subst size; lia). clearbody size.
  change (csp (discard s 2)) with (csp s) in H. change (c_spb (cf (discard s 2))) with (c_spb (cf s)) in H.
  cbv zeta in H. change (csp (discard s 2)) with (csp s) in H. change (c_spb (cf (discard s 2))) with (c_spb (cf s)) in H.
  destruct (c_spb (cf s) <=? csp s + size) eqn:E.
  { destruct (putstack (discard s 2) size (var + ALLOC_OFF)); cbn [bindo] in H; discriminate H. }
  rewrite (u16_small ((csp s + 1) / 2 * 2)) in H by lia. set (addr := (csp s + 1) / 2 * 2) in *.
  assert (Had : csp s <= addr <= csp s + 1 /\ addr mod 2 = 0) by (subst addr; lia).
  rewrite (u16_small (addr + size)) in H by lia. unfold putstack, DATA_OFF, SIZE_OFF, ALLOC_OFF in H.
  destruct (wr (with_csp (discard s 2) (addr + size)) ((var + 2) / 2) addr) as [s1|] eqn:E1; [|discriminate H]. cbn [bindo] in H.
  destruct (wr s1 ((var + 0) / 2) 0) as [s2|] eqn:E2; [|discriminate H]. cbn [bindo] in H.
  destruct (wr s2 ((var + 4) / 2) size) as [s3|] eqn:E3; [|discriminate H]. cbn [bindo] in H. injection H as <-.
  apply wr_some in E1. destruct E1 as (_ & ->). apply wr_some in E2. destruct E2 as (_ & ->). apply wr_some in E3. destruct E3 as (_ & ->).
  cbn [csp cf with_mem with_csp discard with_sp] in *.
  apply word_u16 in Hw. destruct Hw as (Hw & _). cbn [mem with_mem with_csp discard with_sp] in Hw.
  rewrite upd_other in Hw by lia. rewrite upd_other in Hw by lia. rewrite upd_same, u16_u16, u16_small in Hw by lia.
  subst b. split; [lia|]. split; [lia|]. split; [lia|]. reflexivity.
Qed.

Lemma strinit_err sbs s var n e s' : operands s [var; n] -> string_op sbs s lbSTRINIT = Err e s' -> csp s' = csp s /\ cf s' = cf s /\ e = eSTRSTKOVERFLOW.
Proof.
  intros Ho H. change (string_op sbs s lbSTRINIT) with (op_strinit s) in H. unfold op_strinit in H.
  pose proof (operand_pop _ _ 0%nat _ Ho eq_refl) as P0. pose proof (operand_pop _ _ 1%nat _ Ho eq_refl) as P1.
  cbn [Z.of_nat Z.add Pos.of_succ_nat Pos.add Pos.succ] in P0, P1. rewrite (discard_0 _ (proj1 Ho)) in P0.
  rewrite P0 in H. cbn [bindo] in H. rewrite P1 in H. cbn [bindo] in H.
  unfold str_init in H. destruct (_ <=? _) eqn:E.
  - unfold putstack in H. destruct (wr (discard s 2) _ _) as [s1|] eqn:E1; cbn [bindo] in H; [|discriminate H].
    injection H as <- <-. apply wr_some in E1. destruct E1 as (_ & ->). split; [reflexivity|]. split; reflexivity.
  - repeat match type of H with
    | context [bindo ?x _] => destruct x; cbn [bindo] in H; try discriminate H
    end.
Qed.

(** Buffers and marks are in descending order *)
Fixpoint stacked (c : Z) (l : list item) : Prop :=
  match l with
  | [] => 0 <= c
  | Buf b n :: r => 0 <= n /\ b + n <= c /\ stacked b r
  | Mark c' :: r => c' <= c /\ stacked c' r
  end.

Lemma stacked_nonneg l : forall c, stacked c l -> 0 <= c.
Proof.
  induction l as [|[b n|c1] r IH]; cbn [stacked]; intros c H; [exact H| |].
  - destruct H as (H1 & H2 & H3). apply IH in H3. lia.
  - destruct H as (H1 & H2). apply IH in H2. lia.
Qed.

Lemma stacked_weaken c c' l : stacked c l -> c <= c' -> stacked c' l.
Proof.
  destruct l as [|[b n|c1] r]; cbn [stacked]; intros H Hc; [lia| |].
  - destruct H as (H1 & H2 & H3). split; [exact H1|]. split; [lia | exact H3].
  - destruct H as [H1 H2]. split; [lia | exact H2].
Qed.

Lemma stacked_drop bufs c' r : forall c, stacked c (bufs ++ Mark c' :: r) -> stacked c' r /\ c' <= c.
Proof.
  induction bufs as [|[b n|c1] l IH]; cbn [app stacked]; intros c H.
  - destruct H as [H1 H2]. split; [exact H2 | exact H1].
  - destruct H as (H1 & H2 & H3). destruct (IH _ H3) as [H4 H5]. split; [exact H4 | lia].
  - destruct H as (H1 & H2). destruct (IH _ H2) as [H4 H5]. split; [exact H4 | lia].
Qed.

Lemma shist_inv sbs s0 s l : string_map (cf s0) -> csp s0 = 0 -> shist sbs s0 s l ->
  cf s = cf s0 /\ csp s <= c_spb (cf s0) /\ stacked (csp s) l.
Proof.
  intros (Hm0 & Hm1 & Hm2) H0 H. induction H as [|s l s' l' H IH Hs].
  - split; [reflexivity|]. split; [lia|]. cbn [stacked]. lia.
  - destruct IH as (I1 & I2 & I3). pose proof (stacked_nonneg _ _ I3) as I4.
    destruct Hs as [s' E1 E2 | | bufs c r Hb El | var n s' b Ho He Hn Hop Hw | var n e s' Ho Hop].
    + rewrite E1, E2. split; [exact I1|]. split; [exact I2 | exact I3].
    + split; [exact I1|]. split; [exact I2|]. cbn [stacked]. split; [lia | exact I3].
    + subst l. destruct (stacked_drop _ _ _ _ I3) as [J1 J2]. split; [exact I1|]. cbn [csp with_csp]. split; [lia | exact J1].
    + pose proof (operand_range _ _ 1%nat _ Ho eq_refl) as Hnr.
      destruct (strinit_ok _ _ _ _ _ _ Ho Hop Hw Hn) as (J1 & J2 & J3 & J4); [lia | rewrite I1; lia | exact He |].
      rewrite J4. split; [exact I1|]. rewrite I1 in J3. split; [exact J3|]. cbn [stacked]. split; [lia|]. split; [exact J2|].
      apply (stacked_weaken (csp s)); [exact I3 | exact J1].
    + destruct (strinit_err _ _ _ _ _ _ Ho Hop) as (J1 & J2 & _). rewrite J1, J2.
      split; [exact I1|]. split; [exact I2 | exact I3].
Qed.

Lemma stacked_bound l : forall c b n, stacked c l -> In (b, n) (buffers l) -> 0 <= b /\ b + n <= c.
Proof.
  induction l as [|[b1 n1|c1] r IH]; cbn [stacked buffers flat_map app]; intros c b n H Hin.
  - destruct Hin.
  - destruct H as (H1 & H2 & H3). destruct Hin as [E | Hin].
    + injection E as -> ->. apply stacked_nonneg in H3. lia.
    + specialize (IH _ _ _ H3 Hin). lia.
  - destruct H as (H1 & H2). specialize (IH _ _ _ H2 Hin). lia.
Qed.

Lemma stacked_disjoint l : forall c, stacked c l -> disjoint_blocks (buffers l).
Proof.
  induction l as [|[b1 n1|c1] r IH]; cbn [stacked buffers flat_map app]; intros c H.
  - exact I.
  - destruct H as (H1 & H2 & H3). cbn [disjoint_blocks]. split; [|exact (IH _ H3)].
    intros y Hy [[b n] [Hin Hy']]. unfold in_block in *. cbn [fst snd] in *.
    pose proof (stacked_bound _ _ _ _ H3 Hin). lia.
  - destruct H as (H1 & H2). exact (IH _ H2).
Qed.

(** ** Substrings, in a heap used last-in-first-out *)

Lemma kept_stable s s' bs b : heap_cfg (cf s) -> chain (wd s) (c_hpb (cf s)) bs -> top bs <= tsize (cf s) -> kept s s' bs ->
  (~ in_heap (cf s) b \/ in_live (live_of (c_hpb (cf s)) bs) b) -> byte_of (mem s') b = byte_of (mem s) b.
Proof.
  intros Hc Hch Ht Hk [Hb | Hb]; [|exact (kept_byte _ _ _ _ Hc Hch Hk Hb)].
  destruct Hk as (_ & _ & K). pose proof (heap_cfg_facts _ Hc) as Hf. pose proof (chain_top _ _ _ Hch) as Hp.
  unfold in_heap in Hb. unfold byte_of. rewrite K by lia. reflexivity.
Qed.

(** Allocation of a buffer in a run of the heap *)
Lemma alloc_tmp_hist si s0 es s live n : heap_cfg (cf si) -> init_heap si = HV s0 -> hist true s0 es s live ->
  (alloc_tmp s n = HV (s, 0, 0)) \/
  (0 < n <= 4095 /\ exists s' a, alloc_tmp s n = HV (s', a, Z.lor n HEAP_STRING) /\ 0 < a /\ a + n < 65536 /\
    hist true s0 (ENew a n :: es) s' ((a, n) :: live) /\ regs s s' /\ cf s = cf si /\
    forall b, ~ in_heap (cf s) b \/ in_live live b -> byte_of (mem s') b = byte_of (mem s) b).
Proof.
  intros Hc Hi H. destruct (hist_inv _ _ _ _ _ Hc Hi H) as (bs & I1 & E1 & E2 & _).
  destruct (alloc_tmp_inv s bs n I1) as (s' & K & [(E & _) | (Hn & z & E & I2)]); [left; exact E | right].
  split; [exact Hn|]. assert (I1' := I1). destruct I1' as (Hcf & Hch & _ & Hf). pose proof (heap_cfg_facts _ Hcf) as Hff.
  pose proof (top_le _ _ _ _ Hf) as HT. pose proof (chain_top _ _ _ Hch) as Htop.
  assert (Hb2 : top bs + 8 + n <= tsize (cf s)).
  { destruct I2 as (_ & Hch2 & _ & Hf2). destruct K as (K1 & _). rewrite K1 in *. apply top_le in Hf2. cbn [top chain] in *. lia. }
  exists s', (c_hpb (cf s) + top bs + 8). split; [exact E|]. split; [lia|]. split; [lia|].
  split; [|split; [exact (alloc_tmp_regs _ _ _ _ _ E) | split; [exact E1|]]].
  - apply (h_step _ _ _ _ _ _ _ _ H). apply (h_tmp _ _ live n s' _ _ E). lia.
  - intros b Hb. apply (kept_stable s s' bs); [exact Hcf | exact Hch | exact HT | exact K |]. rewrite E1. rewrite <- E2. rewrite E1 in Hb. exact Hb.
Qed.
