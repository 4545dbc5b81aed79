(** Starting the p-machine: proofs. *)

From Coq Require Import ZArith Bool List Lia ZifyBool.
From Verif Require Import Words WordLemmas State StateLemmas Machine VmSpec HeapModel HeapSpec HeapInv HeapMain StartModel StartSpec.
From Verif Require DeclModel.
Import ListNotations.
Open Scope Z_scope.

Lemma aligned_up n : 0 <= n -> up n <= 65535 -> aligned n = up n.
Proof. intros H L. unfold aligned, DeclModel.INT_ALIGNUP. unfold up in *. rewrite u16_small; lia. Qed.

Lemma copied l : forall s a, 0 <= a -> a + Z.of_nat (length l) <= c_ssz (cf s) -> Forall (fun b => 0 <= b <= 255) l ->
  exists m, copy_bytes s a l = HV (with_mem s m) /\
    (forall k b, nth_error l k = Some b -> byte_of m (a + Z.of_nat k) = b) /\
    (forall b, b < a \/ a + Z.of_nat (length l) <= b -> byte_of m b = byte_of (mem s) b).
Proof.
  induction l as [|b l IH]; intros s a A L F; cbn [copy_bytes length] in *.
  - exists (mem s). split; [destruct s; reflexivity|]. split; [intros [|k] b H; discriminate|reflexivity].
  - inversion F as [|? ? B F']; subst. unfold wrb, in_byte. replace ((0 <=? a) && (a <? c_ssz (cf s))) with true by lia.
    cbn [hopt hbind]. destruct (IH (with_mem s (set_byte (mem s) a b)) (a + 1)) as (m & E & I1 & I2); [lia|cbn; lia|exact F'|].
    rewrite E. exists m. split; [reflexivity|]. split.
    + intros [|k] x H; cbn [nth_error] in H.
      * injection H as <-. rewrite Z.add_0_r, I2 by lia. cbn [mem with_mem]. rewrite set_byte_same. unfold u8. apply Z.mod_small. lia.
      * rewrite <- (I1 k x H). f_equal. lia.
    + intros x Hx. rewrite I2 by lia. cbn [mem with_mem]. apply set_byte_other. lia.
Qed.

Lemma alignup_up16 n : alignup n = up16 n.
Proof. unfold alignup, up16. lia. Qed.

Lemma wr_ok s i v : 0 <= i < c_ssz (cf s) / 2 -> wr s i v = Some (with_mem s (upd (mem s) i (u16 v))).
Proof. intros H. unfold wr, in_word. replace ((0 <=? i) && (i <? c_ssz (cf s) / 2)) with true by lia. reflexivity. Qed.

Lemma heap_within s : cfg_ok (cf s) -> c_hpsz (cf s) <= 32 \/ up16 (c_hpb (cf s)) <= c_hpb (cf s) + 8 /\ up16 (c_hpb (cf s)) + c_hpsz (cf s) <= 65535 ->
  exists m f, init_heap s = HV (with_fch (with_mem s m) f) /\ (forall b, ~ in_heap (cf s) b -> byte_of m b = byte_of (mem s) b).
Proof.
  intros C [H|(H1 & H2)].
  - exists (mem s), (fch s). unfold init_heap. replace (2 * UNIT <? c_hpsz (cf s)) with false by (unfold UNIT; lia).
    split; [destruct s; reflexivity|reflexivity].
  - destruct (Z_le_gt_dec (c_hpsz (cf s)) 32) as [L|L].
    + exists (mem s), (fch s). unfold init_heap. replace (2 * UNIT <? c_hpsz (cf s)) with false by (unfold UNIT; lia).
      split; [destruct s; reflexivity|reflexivity].
    + rewrite <- alignup_up16 in *. destruct (init_within s C ltac:(lia) ltac:(lia) ltac:(lia)) as (s' & E & Cf & M).
      exists (mem s'), (fch s'). split; [|exact M]. rewrite E. f_equal.
      revert E. unfold init_heap. replace (2 * UNIT <? c_hpsz (cf s)) with true by (unfold UNIT; lia).
      repeat match goal with |- context [hput ?x ?a ?k ?v] => 
        let E := fresh "E" in destruct (hput x a k v) eqn:E; cbn [hbind]; [|discriminate|discriminate];
        unfold hput in E; destruct (a mod 2 =? 0); [|discriminate]; unfold wr in E;
        match type of E with hopt (if ?b then _ else _) = _ => destruct b; [|discriminate] end; cbn [hopt] in E; injection E as <- end.
      intros E; injection E as <-. reflexivity.
Qed.

Theorem start_ok a junk : startable a -> exists s, initialize a junk = HV s /\ at_start a s /\
  (forall l, a_rodata a = Some l -> forall k b, nth_error l k = Some b -> byte_of (mem s) (a_str a + Z.of_nat k) = b).
Proof.
  intros [(P1 & P2 & P3 & P4) Su En Da He]. unfold end_at, heap_at, stack_at, ro_at in *.
  assert (U : forall n, 0 <= n -> n <= up n <= n + 1 /\ up n mod 2 = 0) by (intros n H; unfold up; lia).
  pose proof (U _ P1) as U1. pose proof (U _ P2) as U2. pose proof (U (a_stk a) ltac:(lia)) as U3. pose proof (U _ P4) as U4.
  assert (Z1 : aligned (a_str a) = up (a_str a)) by (apply aligned_up; lia).
  assert (Z2 : aligned (a_ro a) = up (a_ro a)) by (apply aligned_up; lia).
  assert (Z3 : aligned (a_stk a) = up (a_stk a)) by (apply aligned_up; lia).
  assert (Z4 : aligned (a_hp a) = up (a_hp a)) by (apply aligned_up; lia).
  unfold initialize. set (z := sizes_of a).
  assert (Ez : z = mkSizes (up (a_str a)) (up (a_ro a)) (up (a_stk a)) (up (a_hp a)) (up (a_str a) + up (a_ro a) + up (a_stk a) + up (a_hp a)) (a_entry a)).
  { unfold z, sizes_of. rewrite Z1, Z2, Z3, Z4. rewrite u16_small by lia. reflexivity. }
  clearbody z. subst z. cbn [z_all].
  set (s0 := mkSt junk _ 0 0 0 0 0 NULL).
  assert (Cp : exists m, (match a_rodata a with Some l => if 0 <? a_ro a then copy_bytes s0 (a_str a) l else HV s0 | None => HV s0 end) = HV (with_mem s0 m) /\
    (forall l, a_rodata a = Some l -> forall k b, nth_error l k = Some b -> byte_of m (a_str a + Z.of_nat k) = b)).
  { destruct (a_rodata a) as [l|].
    - destruct (Da l eq_refl) as (D1 & D2). destruct (0 <? a_ro a) eqn:E0.
      + destruct (copied l s0 (a_str a)) as (m & E & I1 & _); [lia|cbn; lia|exact D2|]. exists m. split; [exact E|]. intros l' [= <-]. exact I1.
      + exists junk. split; [reflexivity|]. intros l' [= <-] k b Hk. destruct l; [destruct k; discriminate Hk|cbn [length] in D1; lia].
    - exists junk. split; [reflexivity|]. discriminate. }
  destruct Cp as (m & -> & Cp). cbn [hbind]. unfold reset. cbn [z_str z_ro z_stk z_hp z_all z_entry]. unfold FBASE, FSIZE.
  set (S := up (a_str a)) in *. set (R := up (a_ro a)) in *. set (K := up (a_stk a)) in *. set (H := up (a_hp a)) in *.
  rewrite (u16_small (S + R)) by lia. rewrite (u16_small (S + R + K)) by lia. rewrite (u16_small (S + R + 10)) by lia.
  cbn [mem with_mem]. set (B := (S + R) / 2) in *.
  repeat (rewrite wr_ok by (cbn [cf c_ssz with_mem]; lia); cbn [hopt hbind with_mem mem cf sp csp fp pc lsp fch]).
  match goal with |- context [init_heap ?q] => set (s1 := q) end.
  destruct (heap_within s1) as (m' & f & E & Fr).
  { unfold cfg_ok, s1. cbn [cf c_hpb c_hpsz c_ssz]. lia. }
  { exact He. }
  rewrite E. exists (with_fch (with_mem s1 m') f). split; [reflexivity|].
  assert (Nh : forall b, b < S + R + K -> byte_of m' b = byte_of (mem s1) b).
  { intros b Hb. apply Fr. unfold in_heap, s1. cbn [cf c_hpb]. lia. }
  assert (W : forall i, i < (S + R + K) / 2 -> u16 (m' i) = u16 (mem s1 i)).
  { intros i Hi. apply word_bytes; apply Nh; lia. }
  split; [constructor; unfold end_at, heap_at, stack_at, ro_at; fold S R K H|].
  - unfold s1. cbn [cf with_mem with_fch c_rop c_spb c_hpb c_hpsz c_ssz]. repeat split.
  - unfold s1. cbn. repeat split.
  - fold B. set (s2 := with_fch (with_mem s1 m') f).
    assert (Rd : forall j v, 0 <= j <= 4 -> u16 (mem s1 (B + j)) = v -> rd s2 (B + j) = Some v).
    { intros j v Hj <-. unfold rd, in_word, s2. cbn [cf with_mem with_fch mem].
      replace (c_ssz (cf s1)) with (S + R + K + H) by reflexivity.
      replace ((0 <=? B + j) && (B + j <? (S + R + K + H) / 2)) with true by lia. f_equal. apply W. lia. }
    replace (rd s2 B) with (rd s2 (B + 0)) by (f_equal; lia).
    repeat split; (apply Rd; [lia|]); unfold s1; cbn [mem]; unfold upd;
    repeat match goal with |- context [?a =? ?b] => destruct (Z.eqb_spec a b); try lia end; reflexivity.
  - intros l El k b Hk. destruct (Da l El) as (D1 & D2). cbn [mem with_mem with_fch].
    assert (Lk : (k < length l)%nat) by (apply nth_error_Some; congruence).
    rewrite Nh by lia. unfold s1. cbn [mem]. rewrite !byte_of_upd_other by lia. apply (Cp l El k b Hk).
Qed.

(** The read-only data, found at [c_rop] *)
Lemma rodata_ok a junk s l : startable a -> a_str a mod 2 = 0 -> a_rodata a = Some l -> initialize a junk = HV s ->
  forall k b, nth_error l k = Some b -> rdb s (c_rop (cf s) + Z.of_nat k) = Some b.
Proof.
  intros St Ev L I k b Hk. destruct (start_ok a junk St) as (s' & I' & A & D). rewrite I in I'. injection I' as <-.
  destruct (as_map _ _ A) as (-> & _ & _ & _ & Sz). destruct St as [(P1 & P2 & P3 & P4) Su En Da He]. destruct (Da l L) as (D1 & _).
  assert (Lk : (k < length l)%nat) by (apply nth_error_Some; congruence).
  unfold rdb, in_byte. rewrite Sz. unfold ro_at, end_at, heap_at, stack_at, ro_at in *. unfold up in *.
  match goal with |- (if ?c then _ else _) = _ => replace c with true by lia end. f_equal. rewrite <- (D l L k b Hk). f_equal. lia.
Qed.
(** With an odd size of the string stack they are found one byte too early. *)
Lemma rodata_odd a junk s l : startable a -> a_str a mod 2 = 1 -> a_rodata a = Some l -> initialize a junk = HV s ->
  forall k b, nth_error l k = Some b -> rdb s (c_rop (cf s) + Z.of_nat k - 1) = Some b.
Proof.
  intros St Ev L I k b Hk. destruct (start_ok a junk St) as (s' & I' & A & D). rewrite I in I'. injection I' as <-.
  destruct (as_map _ _ A) as (-> & _ & _ & _ & Sz). destruct St as [(P1 & P2 & P3 & P4) Su En Da He]. destruct (Da l L) as (D1 & _).
  assert (Lk : (k < length l)%nat) by (apply nth_error_Some; congruence).
  unfold rdb, in_byte. rewrite Sz. unfold ro_at, end_at, heap_at, stack_at, ro_at in *. unfold up in *.
  match goal with |- (if ?c then _ else _) = _ => replace c with true by lia end. f_equal. rewrite <- (D l L k b Hk). f_equal. lia.
Qed.
