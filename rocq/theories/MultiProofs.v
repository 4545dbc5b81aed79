(** Proofs about multiple loads and stores. *)

From Coq Require Import ZArith Bool List Lia ZifyBool.
From Verif Require Import Words State Opcodes SetModel LongModel Machine WordLemmas StateLemmas VmSpec VmProofs MemProofs.
Import ListNotations.
Open Scope Z_scope.
Ltac Zify.zify_post_hook ::= Z.div_mod_to_equations.

Lemma load_loop_ok n : forall s size addr, n = Z.to_nat (roundbtoi size) -> 0 <= size ->
  room s (roundbtoi size) -> (0 < size -> addr mod 2 = 0 /\ 0 <= addr /\ addr + size <= c_ssz (cf s) /\
  disjoint addr size (2 * (sp s / 2 + 1)) (2 * roundbtoi size)) ->
  exists s', load_loop n s size addr = Some s' /\ same_regs s s' /\ pc s' = pc s /\
    sp s' = sp s + 2 * roundbtoi size /\
    (forall j, 0 <= j < size -> byte_of (mem s') (2 * (sp s / 2 + 1) + j) = byte_of (mem s) (addr + j)) /\
    (forall i, ~ (sp s / 2 < i <= sp s / 2 + roundbtoi size) -> mem s' i = mem s i).
Proof.
  unfold roundbtoi.
  induction n as [|n IH]; intros s size addr Hn Hsz (R0 & R1 & R2 & R3) Hs.
  - cbn [load_loop]. exists s. assert (size = 0) by lia. subst size.
    unfold same_regs. repeat split; auto; lia.
  - cbn [load_loop]. destruct (Hs ltac:(lia)) as (Ha & Ha0 & Hb & Hd). unfold disjoint in *.
    destruct (2 <=? size) eqn:E2.
    + unfold getstack. rewrite rd_in by (apply in_word_iff; lia). cbn [bindO].
      rewrite push_ok by lia. cbn [bindO].
      set (s1 := with_mem _ _).
      destruct (IH s1 (size - 2) (u16 (addr + 2))) as (s' & E & (S1 & S2 & S3 & S4 & S5) & P & SP & B & M).
      * lia.
      * lia.
      * unfold room, s1; cbn [cf sp with_mem with_sp]. lia.
      * intros Hpos. rewrite (u16_small (addr + 2)) by lia. unfold s1; cbn [cf sp with_mem with_sp]. lia.
      * exists s'. split; [exact E|]. subst s1. cbn [cf csp fp lsp fch sp pc mem with_mem with_sp] in *.
        replace ((sp s + 2) / 2) with (sp s / 2 + 1) in * by lia.
        split; [unfold same_regs; auto|]. split; [exact P|]. split; [lia|]. split.
        -- intros j Hj. destruct (Z_lt_le_dec j 2) as [L|L].
           ++ assert (Hm : mem s' (sp s / 2 + 1) = u16 (u16 (mem s (addr / 2)))).
              { rewrite M by lia. rewrite upd_same. reflexivity. }
              assert (j = 0 \/ j = 1) as [-> | ->] by lia; unfold byte_of.
              ** replace ((2 * (sp s / 2 + 1) + 0) mod 2 =? 0) with true by lia.
                 replace ((addr + 0) mod 2 =? 0) with true by lia.
                 replace ((2 * (sp s / 2 + 1) + 0) / 2) with (sp s / 2 + 1) by lia.
                 replace ((addr + 0) / 2) with (addr / 2) by lia. rewrite Hm. unfold u8, u16. lia.
              ** replace ((2 * (sp s / 2 + 1) + 1) mod 2 =? 0) with false by lia.
                 replace ((addr + 1) mod 2 =? 0) with false by lia.
                 replace ((2 * (sp s / 2 + 1) + 1) / 2) with (sp s / 2 + 1) by lia.
                 replace ((addr + 1) / 2) with (addr / 2) by lia. rewrite Hm. unfold u8, u16. lia.
           ++ specialize (B (j - 2) ltac:(lia)). rewrite (u16_small (addr + 2)) in B by lia.
              replace (2 * (sp s / 2 + 1) + j) with (2 * (sp s / 2 + 1 + 1) + (j - 2)) by lia.
              rewrite B. replace (addr + 2 + (j - 2)) with (addr + j) by lia.
              apply byte_of_upd_other. lia.
        -- intros i Hi. rewrite M by lia. apply upd_other. lia.
    + assert (size = 1) by lia. subst size. assert (n = O) by lia. subst n. cbn [load_loop].
      unfold rdb. replace (in_byte s addr) with true by (symmetry; apply in_byte_iff; lia). cbn [bindO].
      rewrite push_ok by lia. cbn [bindO]. eexists; split; [reflexivity|].
      cbn [cf csp fp lsp fch sp pc mem with_mem with_sp]. unfold same_regs.
      split; [repeat split|]. split; [reflexivity|]. split; [lia|]. split.
      * intros j Hj. assert (j = 0) by lia. subst j. rewrite !Z.add_0_r.
        rewrite byte_of_upd_lo. pose proof (byte_range (mem s) addr). unfold u8, u16. lia.
      * intros i Hi. apply upd_other. lia.
Qed.

Lemma store_loop_ok n : forall s size addr k, n = Z.to_nat (roundbtoi size) -> 0 <= size ->
  -32768 <= k < 32768 -> (k + 1 >= roundbtoi size) -> k <= sp s / 2 -> c_ssz (cf s) <= 65536 -> c_ssz (cf s) mod 2 = 0 ->
  0 <= sp s < c_ssz (cf s) ->
  (0 < size -> addr mod 2 = 0 /\ 0 <= addr /\ addr + size <= c_ssz (cf s) /\
   disjoint addr size (2 * (sp s / 2 - k)) size) ->
  exists s', store_loop n s size addr k = Some s' /\ same_regs s s' /\ pc s' = pc s /\ sp s' = sp s /\
    (forall j, 0 <= j < size -> byte_of (mem s') (addr + j) = byte_of (mem s) (2 * (sp s / 2 - k) + j)) /\
    (forall b, ~ (addr <= b < addr + size) -> byte_of (mem s') b = byte_of (mem s) b).
Proof.
  unfold roundbtoi.
  induction n as [|n IH]; intros s size addr k Hn Hsz Hk Hk2 Hk3 R2 R3 Hsp Hs.
  - cbn [store_loop]. exists s. assert (size = 0) by lia. subst size.
    unfold same_regs. repeat split; auto; lia.
  - cbn [store_loop]. destruct (Hs ltac:(lia)) as (Ha & Ha0 & Hb & Hd). unfold disjoint in *.
    unfold tos. rewrite rd_in by (apply in_word_iff; lia). cbn [bindO].
    destruct (2 <=? size) eqn:E2.
    + unfold putstack. rewrite wr_in by (apply in_word_iff; lia). cbn [bindO].
      set (s1 := with_mem _ _).
      destruct (IH s1 (size - 2) (u16 (addr + 2)) (s16 (k - 1))) as (s' & E & (S1 & S2 & S3 & S4 & S5) & P & SP & B & M).
      * lia.
      * lia.
      * apply s16_range.
      * rewrite s16_small by lia. lia.
      * rewrite s16_small by lia. unfold s1; cbn [sp with_mem]. lia.
      * exact R2.
      * exact R3.
      * exact Hsp.
      * intros Hpos. rewrite s16_small by lia. rewrite (u16_small (addr + 2)) by lia. unfold s1; cbn [cf sp with_mem with_sp]. lia.
      * exists s'. split; [exact E|]. subst s1. cbn [cf csp fp lsp fch sp pc mem with_mem with_sp] in *.
        rewrite (s16_small (k - 1)) in B by lia.
        split; [unfold same_regs; auto|]. split; [exact P|]. split; [lia|].
        assert (Hu : u16 (addr + 2) = addr + 2 \/ size = 2) by (destruct (Z_lt_le_dec (addr + 2) 65536); [left; apply u16_small; lia|lia]).
        assert (M' : forall b, ~ (addr <= b < addr + size) \/ addr <= b < addr + 2 -> byte_of (mem s') b = byte_of (upd (mem s) (addr / 2) (u16 (u16 (mem s (sp s / 2 - k))))) b).
        { intros b Hbb. apply M. destruct Hu as [-> | ->]; lia. }
        split.
        -- intros j Hj. destruct (Z_lt_le_dec j 2) as [L|L].
           ++ rewrite M' by lia. rewrite u16_u16.
              assert (j = 0 \/ j = 1) as [-> | ->] by lia; rewrite ?Z.add_0_r.
              ** replace addr with (2 * (addr / 2)) at 2 by lia. rewrite byte_of_upd_lo. unfold byte_of.
                 replace ((2 * (sp s / 2 - k)) mod 2 =? 0) with true by lia.
                 replace ((2 * (sp s / 2 - k)) / 2) with (sp s / 2 - k) by lia. unfold u8, u16; lia.
              ** replace (addr + 1) with (2 * (addr / 2) + 1) by lia.
                 rewrite byte_of_upd_hi. unfold byte_of.
                 replace ((2 * (sp s / 2 - k) + 1) mod 2 =? 0) with false by lia.
                 replace ((2 * (sp s / 2 - k) + 1) / 2) with (sp s / 2 - k) by lia. unfold u8, u16; lia.
           ++ assert (Hu' : u16 (addr + 2) = addr + 2) by (destruct Hu; [assumption|lia]).
              specialize (B (j - 2) ltac:(lia)). rewrite Hu' in B.
              replace (addr + 2 + (j - 2)) with (addr + j) in B by lia. rewrite B.
              replace (2 * (sp s / 2 - (k - 1)) + (j - 2)) with (2 * (sp s / 2 - k) + j) by lia.
              apply byte_of_upd_other. lia.
        -- intros b Hbb. rewrite M' by lia. apply byte_of_upd_other. lia.
    + assert (size = 1) by lia. subst size. assert (n = O) by lia. subst n. cbn [store_loop].
      unfold wrb. replace (in_byte s addr) with true by (symmetry; apply in_byte_iff; lia). cbn [bindO].
      eexists; split; [reflexivity|]. cbn [cf csp fp lsp fch sp pc mem with_mem with_sp]. unfold same_regs.
      split; [repeat split|]. split; [reflexivity|]. split; [lia|]. split.
      * intros j Hj. assert (j = 0) by lia. subst j. rewrite !Z.add_0_r. rewrite set_byte_same.
        unfold byte_of. replace ((2 * (sp s / 2 - k)) mod 2 =? 0) with true by lia.
        replace ((2 * (sp s / 2 - k)) / 2) with (sp s / 2 - k) by lia. unfold u8, u16; lia.
      * intros b Hbb. apply set_byte_other. lia.
Qed.

Lemma rdb_in s a : 0 <= a < c_ssz (cf s) -> rdb s a = Some (byte_of (mem s) a).
Proof. intros H. unfold rdb. replace (in_byte s a) with true; [reflexivity|]. symmetry; apply in_byte_iff; exact H. Qed.

Lemma rdb_eq s s' b : cf s' = cf s -> byte_of (mem s') b = byte_of (mem s) b -> rdb s' b = rdb s b.
Proof. intros Hc Hb. unfold rdb, in_byte. rewrite Hc, Hb. reflexivity. Qed.
Lemma rd_eq s s' i : cf s' = cf s -> mem s' i = mem s i -> rd s' i = rd s i.
Proof. intros Hc Hb. unfold rd, in_word. rewrite Hc, Hb. reflexivity. Qed.

Lemma reaches_word s f k g : 0 <= f < 65536 -> reaches s f k g -> 0 <= g < 65536.
Proof. intros Hf H. induction H as [|f g h k Hs Hr IH]; [exact Hf|]. apply IH. eapply rd_range; eauto. Qed.

(** The common shape of the multiple loads: [s0] is the state after popping *)
Lemma load_multi_effect s0 n a len : 0 <= n < 65536 -> room s0 (words_of n) ->
  (0 < n -> a mod 2 = 0 /\ 0 <= a /\ a + n <= c_ssz (cf s0) /\
   disjoint a n (2 * (sp s0 / 2 + 1)) (2 * words_of n)) ->
  exists s', next len (ret (load_multi s0 n a)) = Ok s' /\ same_regs s0 s' /\
    sp s' = sp s0 + 2 * words_of n /\ pc s' = u16 (pc s0 + len) /\
    bytes_copied s0 s' a (2 * (sp s0 / 2 + 1)) n /\
    (forall i, ~ (sp s0 / 2 < i <= sp s0 / 2 + words_of n) -> rd s' i = rd s0 i).
Proof.
  intros Hn R Hc.
  destruct (load_loop_ok (Z.to_nat (roundbtoi n)) s0 n a eq_refl ltac:(lia) R Hc)
    as (s' & E & S & P & SP & B & M).
  unfold load_multi. rewrite E. cbn [ret next]. eexists; split; [reflexivity|].
  split; [exact S|]. split; [exact SP|]. rewrite P. split; [reflexivity|].
  assert (Hcf : cf s' = cf s0) by (destruct S; assumption).
  destruct R as (R0 & R1 & R2 & R3). unfold words_of, roundbtoi in *.
  split.
  - intros j Hj. destruct (Hc ltac:(lia)) as (C1 & C2 & C3 & C4).
    rewrite !rdb_in by (cbn [cf with_pc]; rewrite ?Hcf; lia). cbn [mem with_pc]. f_equal. apply B; lia.
  - intros i Hi. apply rd_eq; [exact Hcf|]. cbn [mem with_pc]. apply M. exact Hi.
Qed.

Lemma loadm_ops_correct c len ix EA s imm8 imm16 idx a n s0 :
  In (c, len, ix, EA) loadm_ops ->
  sp s < 65536 -> (if ix then 4 else 2) <= sp s ->
  tos s 0 = Some n -> (ix = true -> tos s 1 = Some idx) ->
  EA s imm8 imm16 idx a ->
  s0 = sp s - (if ix then 4 else 2) ->
  s0 + 2 * words_of n < c_ssz (cf s) -> c_ssz (cf s) <= 65536 -> c_ssz (cf s) mod 2 = 0 ->
  (0 < n -> a mod 2 = 0 /\ a + n <= c_ssz (cf s) /\
   disjoint a n (2 * (s0 / 2 + 1)) (2 * words_of n)) ->
  exists s', exec_insn s (mkOp c imm8 imm16) = Ok s' /\ same_regs s s' /\
    sp s' = s0 + 2 * words_of n /\ pc s' = u16 (pc s + len) /\
    bytes_copied s s' a (2 * (s0 / 2 + 1)) n /\
    (forall i, ~ (s0 / 2 < i <= s0 / 2 + words_of n) -> rd s' i = rd s i).
Proof.
  intros Hin Hs Hsp Ht Hix HEA H0 R1 R2 R3 Hc.
  pose proof (tos_range _ _ _ Ht) as Hn.
  assert (Hp1 : pop s = Some (n, with_sp s (sp s - 2))).
  { rewrite (pop_eq _ _ Ht). rewrite u16_small by (destruct ix; lia). reflexivity. }
  assert (Hp2 : ix = true -> pop (with_sp s (sp s - 2)) = Some (idx, with_sp s s0)).
  { intros Hx. rewrite Hx in *. rewrite (pop_eq _ idx).
    - cbn [sp with_sp]. rewrite with_sp_sp, u16_small by lia. subst s0. do 2 f_equal. f_equal. lia.
    - specialize (Hix eq_refl). replace (sp s - 2) with (u16 (sp s - 2)) by (apply u16_small; lia).
      rewrite tos_pop by lia. exact Hix. }
  assert (Ha : 0 < n -> 0 <= a).
  { intros Hpos. cbn [In loadm_ops] in Hin.
    repeat (destruct Hin as [Hin|Hin]; [injection Hin; intros <- <- <- <-; cbv beta in HEA|]); [..|destruct Hin];
      [destruct HEA as [HH _]; lia|destruct HEA as [HH _]; lia|
       destruct HEA as (g & z & _ & _ & [HH _]); lia|destruct HEA as (g & z & _ & _ & [HH _]); lia|].
    unfold indirect_ea in HEA. specialize (Hix eq_refl). pose proof (tos_range _ _ _ Hix). lia. }
  assert (Main : forall len, exists s', next len (ret (load_multi (with_sp s s0) n a)) = Ok s' /\ same_regs s s' /\
    sp s' = s0 + 2 * words_of n /\ pc s' = u16 (pc s + len) /\
    bytes_copied s s' a (2 * (s0 / 2 + 1)) n /\
    (forall i, ~ (s0 / 2 < i <= s0 / 2 + words_of n) -> rd s' i = rd s i)).
  { intros len'. apply (load_multi_effect (with_sp s s0) n a len'); [lia| |].
    - unfold room; cbn [sp cf with_sp]. destruct ix; lia.
    - intros Hpos. destruct (Hc Hpos) as (C1 & C2 & C3). auto. }
  cbn [In loadm_ops] in Hin.
  repeat (destruct Hin as [Hin|Hin];
    [injection Hin; intros <- <- <- <-; clear Hin; cbv beta in HEA;
     try specialize (Hp2 eq_refl)|]); [..|destruct Hin].
  - change (exec_insn s _) with (next 3 (exec24 LDM s imm16)). cbn [exec24].
    step_eq Hp1. rewrite (global_ea_u16_0 _ _ _ HEA). rewrite <- H0. apply Main.
  - change (exec_insn s _) with (next 3 (exec24 LDXM s imm16)). cbn [exec24].
    step_eq Hp1. step_eq Hp2. replace (idx + (c_spb (cf s) + imm16)) with (c_spb (cf s) + imm16 + idx) by lia.
    rewrite (global_ea_u16 _ _ _ _ HEA). apply Main.
  - change (exec_insn s _) with (next 4 (exec32 LDSM s imm8 imm16)). cbn [exec32].
    step_eq Hp1. rewrite get_base_sp. step_eq (frame_ea_base _ _ _ _ HEA). rewrite <- H0. apply Main.
  - change (exec_insn s _) with (next 4 (exec32 LDSXM s imm8 imm16)). cbn [exec32].
    step_eq Hp1. step_eq Hp2. rewrite get_base_sp.
    destruct (frame_ea_store _ _ _ _ _ HEA) as (b & Hb & Hba). step_eq Hb. rewrite Hba. apply Main.
  - change (exec_insn s _) with (next 1 (exec8 LDIM s)). cbn [exec8]. unfold indirect_ea in HEA; subst a.
    step_eq Hp1. step_eq Hp2. apply Main.
Qed.

(** Multiple stores: after popping the size, [k] is the position of the first
    data word. *)
Lemma store_multi_effect s n a k len d sp' : 0 <= n < 65535 -> -32768 <= k < 32768 -> k + 1 >= words_of n ->
  k <= sp s / 2 -> c_ssz (cf s) <= 65536 -> c_ssz (cf s) mod 2 = 0 -> 0 <= sp s < c_ssz (cf s) ->
  (0 < n -> a mod 2 = 0 /\ 0 <= a /\ a + n <= c_ssz (cf s) /\
   disjoint a n (2 * (sp s / 2 - k)) n) ->
  u16 (sp s - 2 * d) = sp' ->
  exists s', next len (bindo (store_multi s n a k) (fun s => Ok (discard s d))) = Ok s' /\ same_regs s s' /\
    sp s' = sp' /\ pc s' = u16 (pc s + len) /\
    bytes_copied s s' (2 * (sp s / 2 - k)) a n /\
    (forall b, ~ (a <= b < a + n) -> rdb s' b = rdb s b).
Proof.
  intros Hn Hk Hk1 Hk2 R2 R3 Hsp Hc Hd.
  destruct (store_loop_ok (Z.to_nat (roundbtoi n)) s n a k eq_refl ltac:(lia) Hk Hk1 Hk2 R2 R3 Hsp Hc)
    as (s' & E & S & P & SP & B & M).
  unfold store_multi. rewrite E. cbn [bindo next]. eexists; split; [reflexivity|].
  assert (Hcf : cf s' = cf s) by (destruct S; assumption).
  split; [exact S|]. cbn [sp pc with_pc discard with_sp]. rewrite SP, P. split; [exact Hd|]. split; [reflexivity|].
  unfold words_of, roundbtoi in *.
  split.
  - intros j Hj. destruct (Hc ltac:(lia)) as (C1 & C2 & C3 & C4).
    rewrite !rdb_in by (cbn [cf with_pc discard with_sp]; rewrite ?Hcf; lia).
    cbn [mem with_pc discard with_sp]. f_equal. apply B; lia.
  - intros b Hb. apply rdb_eq; [exact Hcf|]. apply M. exact Hb.
Qed.

Lemma storem_ops_correct c len ix EA s imm8 imm16 idx a n k :
  In (c, len, ix, EA) storem_ops ->
  tos s 0 = Some n -> n < 65535 ->
  k = words_of n + (if ix then 1 else 0) -> 2 * (k + 1) <= sp s < c_ssz (cf s) ->
  (ix = true -> tos s k = Some idx) ->
  EA s imm8 imm16 idx a ->
  c_ssz (cf s) <= 65536 -> c_ssz (cf s) mod 2 = 0 ->
  (0 < n -> a mod 2 = 0 /\ a + n <= c_ssz (cf s) /\
   disjoint a n (2 * (sp s / 2 - words_of n)) n) ->
  exists s', exec_insn s (mkOp c imm8 imm16) = Ok s' /\ same_regs s s' /\
    sp s' = sp s - 2 * (k + 1) /\ pc s' = u16 (pc s + len) /\
    bytes_copied s s' (2 * (sp s / 2 - words_of n)) a n /\
    (forall b, ~ (a <= b < a + n) -> rdb s' b = rdb s b).
Proof.
  intros Hin Ht Hn2 Hk Hsp Hix HEA R2 R3 Hc.
  pose proof (tos_range _ _ _ Ht) as Hn.
  assert (Ha : 0 < n -> 0 <= a).
  { intros Hpos. cbn [In storem_ops] in Hin.
    repeat (destruct Hin as [Hin|Hin]; [injection Hin; intros <- <- <- <-; cbv beta in HEA|]); [..|destruct Hin];
      [destruct HEA as [HH _]; lia|destruct HEA as [HH _]; lia|
       destruct HEA as (g & z & _ & _ & [HH _]); lia|destruct HEA as (g & z & _ & _ & [HH _]); lia|].
    unfold indirect_ea in HEA. specialize (Hix eq_refl). pose proof (tos_range _ _ _ Hix). lia. }
  assert (Hwk : words_of n <= k) by (destruct ix; lia).
  assert (Hw : 0 <= words_of n < 32768) by (unfold words_of; lia).
  assert (Hp1 : pop s = Some (n, with_sp s (sp s - 2))).
  { rewrite (pop_eq _ _ Ht). rewrite u16_small by (destruct ix; lia). reflexivity. }
  assert (HK : s16 (roundbtoi n) = words_of n).
  { apply s16_small. unfold words_of, roundbtoi in *; lia. }
  assert (HK1 : s16 (roundbtoi n - 1) = words_of n - 1).
  { apply s16_small. unfold words_of, roundbtoi in *; lia. }
  assert (HK2 : s16 (words_of n - 1) = words_of n - 1) by (apply s16_small; lia).
  assert (Hp2 : ix = true -> tos (with_sp s (sp s - 2)) (words_of n) = Some idx).
  { intros Hx. rewrite Hx in *. specialize (Hix eq_refl). rewrite <- Hix.
    replace (sp s - 2) with (u16 (sp s - 2)) by (apply u16_small; lia). rewrite tos_pop by lia. f_equal. lia. }
  assert (Main : forall len d, d = k -> exists s', next len (bindo (store_multi (with_sp s (sp s - 2)) n a (words_of n - 1)) (fun s => Ok (discard s d))) = Ok s' /\ same_regs s s' /\
    sp s' = sp s - 2 * (k + 1) /\ pc s' = u16 (pc s + len) /\
    bytes_copied s s' (2 * (sp s / 2 - words_of n)) a n /\
    (forall b, ~ (a <= b < a + n) -> rdb s' b = rdb s b)).
  { intros len' d ->.
    destruct (store_multi_effect (with_sp s (sp s - 2)) n a (words_of n - 1) len' k (sp s - 2 * (k + 1)))
      as (s' & E & S & SP & P & B & M); cbn [sp cf with_sp]; try lia.
    - intros Hpos. destruct (Hc Hpos) as (C1 & C2 & C3). specialize (Ha Hpos). split; [exact C1|].
      split; [lia|]. split; [lia|]. replace (2 * ((sp s - 2) / 2 - (words_of n - 1))) with (2 * (sp s / 2 - words_of n)) by lia. exact C3.
    - rewrite u16_small by lia. lia.
    - exists s'. split; [exact E|]. split; [exact S|]. split; [exact SP|]. split; [exact P|]. split; [|exact M].
      cbn [sp with_sp] in B.
      replace (2 * ((sp s - 2) / 2 - (words_of n - 1))) with (2 * (sp s / 2 - words_of n)) in B by lia. exact B. }
  cbn [In storem_ops] in Hin.
  repeat (destruct Hin as [Hin|Hin];
    [injection Hin; intros <- <- <- <-; clear Hin; cbv beta in HEA;
     try specialize (Hp2 eq_refl)|]); [..|destruct Hin].
  - change (exec_insn s _) with (next 3 (exec24 STM s imm16)). cbn [exec24].
    step_eq Hp1. rewrite (global_ea_u16_0 _ _ _ HEA), HK1. apply Main. unfold roundbtoi, words_of in *; lia.
  - change (exec_insn s _) with (next 3 (exec24 STXM s imm16)). cbn [exec24]. cbv zeta.
    step_eq Hp1. rewrite HK. step_eq Hp2. rewrite HK2. replace (idx + (c_spb (cf s) + imm16)) with (c_spb (cf s) + imm16 + idx) by lia.
    rewrite (global_ea_u16 _ _ _ _ HEA). apply Main. unfold roundbtoi, words_of in *; lia.
  - change (exec_insn s _) with (next 4 (exec32 STSM s imm8 imm16)). cbn [exec32].
    step_eq Hp1. rewrite get_base_sp. step_eq (frame_ea_base _ _ _ _ HEA). rewrite HK1. apply Main. unfold roundbtoi, words_of in *; lia.
  - change (exec_insn s _) with (next 4 (exec32 STSXM s imm8 imm16)). cbn [exec32]. cbv zeta.
    step_eq Hp1. rewrite HK. step_eq Hp2. rewrite HK2. rewrite get_base_sp.
    destruct (frame_ea_store _ _ _ _ _ HEA) as (b & Hb & Hba). step_eq Hb. rewrite Hba. apply Main. unfold roundbtoi, words_of in *; lia.
  - change (exec_insn s _) with (next 1 (exec8 STIM s)). cbn [exec8]. cbv zeta. unfold indirect_ea in HEA; subst a.
    step_eq Hp1. rewrite HK. step_eq Hp2. rewrite HK2. apply Main. unfold roundbtoi, words_of in *; lia.
Qed.

Lemma push_insn s x v : room s 1 -> 0 <= v < 65536 ->
  exists s', exec_insn s (mkOp oPUSH x v) = Ok s' /\ stack_effect s s' 0 [v] /\ pc s' = u16 (pc s + 3).
Proof.
  intros R Hv. change (exec_insn s (mkOp oPUSH x v)) with (next 3 (exec24 PUSH s v)). cbn [exec24].
  apply ret_next. apply push_effect; assumption.
Qed.

Lemma rd_rdb s s' i : cf s' = cf s -> c_ssz (cf s) mod 2 = 0 -> rd s' i = rd s i -> 0 <= i ->
  rdb s' (2 * i) = rdb s (2 * i) /\ rdb s' (2 * i + 1) = rdb s (2 * i + 1).
Proof.
  intros Hc He H Hi. unfold rdb, in_byte. rewrite Hc. unfold rd, in_word in H. rewrite Hc in H.
  destruct ((0 <=? i) && (i <? c_ssz (cf s) / 2)) eqn:E.
  - injection H as H. rewrite !word_of_bytes in H.
    pose proof (byte_range (mem s) (2 * i)). pose proof (byte_range (mem s') (2 * i)).
    pose proof (byte_range (mem s) (2 * i + 1)). pose proof (byte_range (mem s') (2 * i + 1)).
    replace (byte_of (mem s') (2 * i)) with (byte_of (mem s) (2 * i)) by lia.
    replace (byte_of (mem s') (2 * i + 1)) with (byte_of (mem s) (2 * i + 1)) by lia. auto.
  - replace ((0 <=? 2 * i) && (2 * i <? c_ssz (cf s))) with false by lia.
    replace ((0 <=? 2 * i + 1) && (2 * i + 1 <? c_ssz (cf s))) with false by lia. auto.
Qed.

Lemma rd_rdb' s s' b : cf s' = cf s -> c_ssz (cf s) mod 2 = 0 -> rd s' (b / 2) = rd s (b / 2) -> rdb s' b = rdb s b.
Proof.
  intros Hc He H. destruct (Z_lt_le_dec b 0) as [L|L].
  - unfold rdb, in_byte. replace (0 <=? b) with false by lia. reflexivity.
  - destruct (rd_rdb s s' (b / 2) Hc He H ltac:(lia)) as [A B].
    assert (b = 2 * (b / 2) \/ b = 2 * (b / 2) + 1) as [E|E] by lia; rewrite E; assumption.
Qed.

(** Copying a global variable of [n] bytes: LDM, then STM. *)
Lemma block_copy s n src dst a d x1 x2 x3 :
  tos s 0 = Some n -> 0 < n < 65535 -> 2 <= sp s ->
  global_ea s src 0 a -> global_ea s dst 0 d ->
  sp s + 2 * words_of n + 2 < c_ssz (cf s) -> c_ssz (cf s) <= 65536 -> c_ssz (cf s) mod 2 = 0 ->
  sp s mod 2 = 0 ->
  a mod 2 = 0 -> d mod 2 = 0 -> a + n <= sp s -> d + n <= sp s ->
  exists s', exec_list [mkOp oLDM x1 src; mkOp oPUSH x2 n; mkOp oSTM x3 dst] s = Ok s' /\
    same_regs s s' /\ sp s' = sp s - 2 /\ bytes_copied s s' a d n /\
    (forall b, b < sp s -> ~ (d <= b < d + n) -> rdb s' b = rdb s b).
Proof.
  intros Ht Hn Hsp HA HD R1 R2 R3 Re Ea Ed Ha Hd.
  assert (Hw : words_of n = (n + 1) / 2) by reflexivity.
  destruct (loadm_ops_correct oLDM 3 false (fun s _ imm16 _ a => global_ea s imm16 0 a) s x1 src 0 a n (sp s - 2))
    as (s1 & E1 & (C1 & C2 & C3 & C4 & C5) & SP1 & _ & B1 & M1); try assumption; try discriminate; try lia; try (left; reflexivity).
  { intros _. split; [exact Ea|]. split; [lia|]. left. lia. }
  destruct (push_insn s1 x2 n) as (s2 & E2 & ((D1 & D2 & D3 & D4 & D5) & SP2 & T2 & M2) & _).
  { unfold room. rewrite C1. lia. }
  { lia. }
  cbn [length] in SP2, M2. specialize (T2 O n eq_refl).
  assert (Cf2 : cf s2 = cf s) by congruence.
  destruct (storem_ops_correct oSTM 3 false (fun s _ imm16 _ a => global_ea s imm16 0 a) s2 x3 dst 0 d n (words_of n))
    as (s3 & E3 & (F1 & F2 & F3 & F4 & F5) & SP3 & _ & B3 & M3); try discriminate; try rewrite Cf2; try lia; try (left; reflexivity).
  { unfold tos. rewrite <- T2. f_equal. lia. }
  { unfold global_ea. rewrite Cf2. exact HD. }
  { intros _. split; [exact Ed|]. split; [lia|]. left. lia. }
  exists s3. cbn [exec_list]. rewrite E1, E2, E3. split; [reflexivity|].
  split; [unfold same_regs; repeat split; congruence|]. split; [lia|].
  assert (X2 : forall b, b < 2 * (sp s1 / 2 + 1) -> rdb s2 b = rdb s1 b).
  { intros b Hb. apply rd_rdb'; [exact D1|rewrite C1; exact R3|]. apply M2. lia. }
  assert (X1 : forall b, b < sp s -> rdb s1 b = rdb s b).
  { intros b Hb. apply rd_rdb'; [exact C1|exact R3|]. apply M1. lia. }
  split.
  - intros j Hj. rewrite (B3 j Hj). rewrite X2 by lia. rewrite <- (B1 j Hj). f_equal. lia.
  - intros b Hb Hbd. rewrite M3 by exact Hbd. rewrite X2 by lia. apply X1. exact Hb.
Qed.
