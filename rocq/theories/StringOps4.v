(** Substrings and temporary strings, in a heap used last-in-first-out *)

From Coq Require Import ZArith Bool List Lia ZifyBool.
From Verif Require Import Words State WordLemmas StateLemmas HeapModel HeapSpec HeapRegs HeapProofs HeapInv HeapMain
  StringModel StringSpec StringProofs StringOps StringOps2 StringOps3.
Import ListNotations.
Open Scope Z_scope.
Local Ltac Zify.zify_post_hook ::= Z.div_mod_to_equations.

(** Three words at the top of the stack *)
Lemma put3 s x y z a b c : tos s 0 = Some a -> tos s 1 = Some b -> tos s 2 = Some c ->
  exists m0 m1 m2, puttos s 0 x = Some (with_mem s m0) /\ puttos (with_mem s m0) 1 y = Some (with_mem s m1) /\
    puttos (with_mem s m1) 2 z = Some (with_mem s m2) /\
    tos (with_mem s m2) 0 = Some (u16 x) /\ tos (with_mem s m2) 1 = Some (u16 y) /\ tos (with_mem s m2) 2 = Some (u16 z) /\
    forall d, ~ within (2 * (sp s / 2 - 2)) 6 d -> byte_of m2 d = byte_of (mem s) d.
Proof.
  intros T0 T1 T2.
  destruct (puttos_word s 0 x a T0) as (m0 & E0 & W0 & O0).
  assert (T1' : tos (with_mem s m0) 1 = Some b) by (apply tos_other; [|exact T1]; unfold within in *; intros d Hd; apply O0; lia).
  destruct (puttos_word _ 1 y b T1') as (m1 & E1 & W1 & O1).
  change (with_mem (with_mem s m0) m1) with (with_mem s m1) in *. cbn [sp with_mem mem] in O1.
  assert (T2' : tos (with_mem s m1) 2 = Some c).
  { apply tos_other; [|exact T2]; unfold within in *; intros d Hd. rewrite O1 by lia. apply O0. lia. }
  destruct (puttos_word _ 2 z c T2') as (m2 & E2 & W2 & O2).
  change (with_mem (with_mem s m1) m2) with (with_mem s m2) in *. cbn [sp with_mem mem] in O2.
  exists m0, m1, m2. repeat (split; [assumption|]). unfold within in *. split; [|split; [|split]].
  - apply (tos_other (with_mem s m0) m2 0); [|exact W0]. unfold within. cbn [sp with_mem mem]. intros d Hd. rewrite O2 by lia. apply O1. lia.
  - apply (tos_other (with_mem s m1) m2 1); [|exact W1]. unfold within. cbn [sp with_mem mem]. intros d Hd. apply O2. lia.
  - exact W2.
  - intros d Hd. rewrite O2 by lia. rewrite O1 by lia. apply O0. lia.
Qed.

Lemma lor_flag n : 0 < n <= 4095 -> Z.lor n HEAP_STRING = n + 32768.
Proof.
  intros H. symmetry. apply Z.add_nocarry_lxor || idtac.
  rewrite <- Z.lxor_lor.
  - apply Z.add_nocarry_lxor. apply land_flag. lia.
  - apply land_flag. lia.
Qed.

(** Two blocks of bytes that have no byte in common *)
Lemma apart_of a n b k : (forall x, within a n x -> within b k x -> False) -> 0 < n -> 0 < k -> apart a n b k.
Proof.
  intros H Hn Hk. unfold apart, within in *. destruct (Z_le_gt_dec (a + n) b); [left; assumption|].
  destruct (Z_le_gt_dec (b + k) a); [right; assumption|]. exfalso. apply (H (Z.max a b)); lia.
Qed.

Lemma regs_user s live s' : cf s' = cf s -> fch s' = fch s ->
  (forall b, in_heap (cf s) b -> byte_of (mem s') b = byte_of (mem s) b) -> user_step s live s'.
Proof. intros H1 H2 H3. split; [exact H1|]. split; [exact H2|]. intros b Hb _. exact (H3 b Hb). Qed.

Lemma substring_len v pos n : 0 <= n -> len (substring v pos n) =
  if (1 <=? pos) && (pos <=? len v) then Z.min n (len v - (pos - 1)) else 0.
Proof.
  intros Hn. unfold substring. destruct ((1 <=? pos) && (pos <=? len v)) eqn:E; [|reflexivity].
  rewrite len_firstn, len_skipn by lia. lia.
Qed.

Lemma chars_substring m a v pos n : 0 <= n -> 1 <= pos <= len v -> chars_at m a v ->
  chars_at m (a + (pos - 1)) (substring v pos n).
Proof.
  intros Hn Hp H. unfold substring. replace ((1 <=? pos) && (pos <=? len v)) with true by lia.
  apply chars_firstn; [lia|]. apply chars_skipn; [lia | exact H].
Qed.

Lemma copy_ok sbs si s0 es s live n pos al a v :
  heap_cfg (cf si) -> init_heap si = HV s0 -> hist true s0 es s live ->
  operands s [n; pos; al; a; len v] -> str_data s a v -> len v <= al mod 4096 -> sp s < c_hpb (cf s) ->
  stable s live a (len v) -> apart a (len v) (2 * (sp s / 2 - 4)) 6 ->
  (string_op sbs s lbCOPYSUBSTR = Err eNOMEMORY (discard s 2)) \/
  (exists s' sub, string_op sbs s lbCOPYSUBSTR = Ok s' /\
     top_string s' (al mod 4096 + 32768) sub (substring v pos n) /\
     regs (discard s 2) s' /\
     (exists es', hist true s0 es' s' ((sub, al mod 4096) :: live)) /\
     forall b, ~ in_heap (cf s) b \/ in_live live b -> ~ within (2 * (sp s / 2 - 4)) 6 b ->
               byte_of (mem s') b = byte_of (mem s) b).
Proof.
  intros Hc Hi H Ho Hv Hl Hsp Hst Hap. change (string_op sbs s lbCOPYSUBSTR) with (op_copysubstr s). unfold op_copysubstr.
  pose proof (operand_range _ _ 0%nat _ Ho eq_refl) as Hn. pose proof (operand_range _ _ 1%nat _ Ho eq_refl) as Hp.
  pose proof (operand_range _ _ 2%nat _ Ho eq_refl) as Hal.
  pose proof (operand_tos s _ 2%nat 0%nat _ Ho eq_refl) as T0.
  pose proof (operand_tos s _ 2%nat 1%nat _ Ho eq_refl) as T1.
  pose proof (operand_tos s _ 2%nat 2%nat _ Ho eq_refl) as T2.
  cbn [Z.of_nat Pos.of_succ_nat Pos.succ] in T0, T1, T2.
  start_pops Ho. pop_one Ho 1%nat. rewrite T0, T1, T2. cbn [bindo]. rewrite land_mask.
  set (sd := discard s 2) in *. set (cap := al mod 4096) in *.
  assert (Hspd : sp sd / 2 - 2 = sp s / 2 - 4 /\ 4 <= sp sd < sp s).
  { destruct Ho as [Ho1 Ho2]. pose proof (tos_sp _ _ _ (Ho2 4%nat _ eq_refl)). subst sd. unfold discard. cbn [sp with_sp].
    rewrite u16_small by lia. lia. }
  destruct Hspd as [Hspd Hspr].
  assert (H1 : hist true s0 (EUser :: es) sd live).
  { apply (h_step _ _ _ _ _ _ _ _ H). apply h_user. apply regs_user; reflexivity. }
  destruct (alloc_tmp_hist _ _ _ _ _ cap Hc Hi H1) as [E | (Hcap & s1 & sub & E & Hsub & Hsub2 & H2 & R & Ecf & K)].
  - left. rewrite E. cbn [hout]. reflexivity.
  - right. rewrite E. cbn [hout]. replace (sub =? 0) with false by lia.
    pose proof (lifo_blocks _ _ _ _ _ Hc Hi H2) as [Hdj Hin]. cbn [disjoint_blocks] in Hdj. destruct Hdj as [Hdj _].
    change (cf sd) with (cf s) in *. rewrite <- Ecf in Hc, Hin. pose proof (heap_cfg_facts _ Hc) as Hf.
    assert (Hblk : forall b, within sub cap b -> in_heap (cf s) b).
    { intros b Hb. apply Hin. exists (sub, cap). split; [left; reflexivity|]. exact Hb. }
    assert (Hsubin : c_hpb (cf s) <= sub /\ sub + cap <= c_ssz (cf s)).
    { pose proof (Hblk sub ltac:(unfold within; lia)) as B1. pose proof (Hblk (sub + cap - 1) ltac:(unfold within; lia)) as B2.
      unfold in_heap in B1, B2. destruct Hc as [(_ & _ & Hc3) _]. lia. }
    assert (Hnl : forall b, within sub cap b -> ~ in_live live b) by (intros b Hb; exact (Hdj b Hb)).
    clear Hdj Hin.
    destruct R as (R1 & R2 & R3 & R4 & R5 & R6). change (cf sd) with (cf s) in R1.
    (* words of the stack are not affected *)
    assert (Stk : forall b, b < c_hpb (cf s) -> byte_of (mem s1) b = byte_of (mem s) b).
    { intros b Hb. apply K. left. unfold in_heap. lia. }
    assert (Tk : forall k w, 0 <= k -> tos sd k = Some w -> tos s1 k = Some w).
    { intros k w Hk T. apply tos_word in T. apply word_tos. rewrite R2.
      apply (word_ext sd); [exact R1 | | | exact T]; apply Stk; lia. }
    pose proof (Tk 0 _ ltac:(lia) T0) as U0. pose proof (Tk 1 _ ltac:(lia) T1) as U1. pose proof (Tk 2 _ ltac:(lia) T2) as U2.
    destruct (put3 s1 (Z.lor cap HEAP_STRING) sub 0 _ _ _ U0 U1 U2) as (m0 & m1 & m2 & F0 & F1 & F2 & W0 & W1 & W2 & O).
    rewrite F0. cbn [bindo]. rewrite F1. cbn [bindo]. rewrite F2. cbn [bindo].
    rewrite R2, Hspd in O. unfold within in O.
    rewrite lor_flag in W0 by lia. rewrite u16_small in W0 by lia. rewrite u16_small in W1 by lia.
    change (u16 0) with 0 in W2.
    set (s2 := with_mem s1 m2) in *.
    assert (Hs2sp : 0 <= sp s2 < 65536) by (change (sp s2) with (sp s1); lia).
    assert (Regs : forall m, regs sd (with_mem s1 m)).
    { intros m. unfold regs. cbn [cf sp csp fp pc lsp with_mem]. change (cf sd) with (cf s). repeat (split; [assumption|]). assumption. }
    (* the rest of the run *)
    assert (Hist : forall m, (forall b, ~ within sub cap b -> in_heap (cf s) b -> byte_of m b = byte_of (mem s1) b) ->
              hist true s0 (EUser :: ENew sub cap :: EUser :: es) (with_mem s1 m) ((sub, cap) :: live)).
    { intros m Hm. apply (h_step _ _ _ _ _ _ _ _ H2). apply h_user. split; [reflexivity|]. split; [reflexivity|].
      intros b Hb Hnb. cbn [mem with_mem]. rewrite R1 in Hb. apply Hm; [|exact Hb]. intros Hw. apply Hnb.
      exists (sub, cap). split; [left; reflexivity | exact Hw]. }
    destruct ((1 <=? pos) && (pos <=? len v) && (0 <? n)) eqn:Ep.
    + set (n1 := if al <? n then al else n). set (n2 := if len v <? pos - 1 + n1 then len v - (pos - 1) else n1).
      assert (En2 : n2 = len (substring v pos n)).
      { rewrite substring_len by lia. replace ((1 <=? pos) && (pos <=? len v)) with true by lia.
        subst n2 n1. destruct (al <? n) eqn:Q1; destruct (len v <? pos - 1 + _) eqn:Q2; lia. }
      rewrite En2. clear En2 n2 n1.
      assert (Ls : 0 < len (substring v pos n) <= len v - (pos - 1)).
      { rewrite substring_len by lia. replace ((1 <=? pos) && (pos <=? len v)) with true by lia. lia. }
      destruct Hv as [Hv [Hv1 Hv2]]. unfold apart in Hap.
      assert (Dsrc : str_data s2 (a + (pos - 1)) (substring v pos n)).
      { split.
        - cbn [mem with_mem s2]. apply (chars_ext (mem s)); [|apply chars_substring; [lia | lia | exact Hv]].
          unfold within. intros b Hb. rewrite O by lia. apply K. apply Hst. unfold within. lia.
        - unfold inside. cbn [cf with_mem s2]. rewrite R1. lia. }
      destruct (memcpy_ok s2 sub (a + (pos - 1)) (substring v pos n)) as (m3 & E3 & C3 & O3).
      { exact Dsrc. }
      { unfold inside. cbn [cf with_mem s2]. rewrite R1. lia. }
      { apply apart_of; [|lia|lia]. intros x Hx1 Hx2. unfold within in Hx1, Hx2.
        destruct (Hst x) as [Q | Q]; [unfold within; lia | |].
        - apply Q. apply Hblk. unfold within. lia.
        - apply (Hnl x); [unfold within; lia | exact Q]. }
      rewrite E3. cbn [bindo]. unfold within in O3. cbn [mem with_mem s2] in O3.
      assert (Tm : forall k w, 0 <= k -> tos s2 k = Some w -> tos (with_mem s2 m3) k = Some w).
      { intros k w Hk T. apply tos_other; [|exact T]. unfold within. intros b Hb. cbn [mem with_mem s2].
        apply O3. change (sp s2) with (sp s1) in Hb. rewrite R2 in Hb. lia. }
      pose proof (Tm 2 _ ltac:(lia) W2) as V2.
      destruct (puttos_word _ 2 (len (substring v pos n)) _ V2) as (m4 & E4 & W4 & O4).
      rewrite E4. cbn [bindo]. rewrite u16_small in W4 by lia. cbn [mem with_mem sp s2] in O4. rewrite R2, Hspd in O4. unfold within in O4.
      change (with_mem (with_mem s2 m3) m4) with (with_mem s1 m4) in *.
      exists (with_mem s1 m4), sub. split; [reflexivity|]. split; [|split; [apply Regs|split]].
      * split.
        -- apply operands3; [exact Hs2sp | | | exact W4].
           ++ apply (tos_other (with_mem s2 m3) m4 0); [|exact (Tm 0 _ ltac:(lia) W0)]. unfold within. cbn [mem with_mem sp s2]. rewrite R2.
              intros b Hb. apply O4. lia.
           ++ apply (tos_other (with_mem s2 m3) m4 1); [|exact (Tm 1 _ ltac:(lia) W1)]. unfold within. cbn [mem with_mem sp s2]. rewrite R2.
              intros b Hb. apply O4. lia.
        -- split; [|unfold inside; cbn [cf with_mem]; rewrite R1; lia]. cbn [mem with_mem].
           apply (chars_ext m3); [|exact C3]. unfold within. intros b Hb. apply O4. lia.
      * eexists. apply Hist. unfold within. intros b Hb Hh. unfold in_heap in Hh. rewrite O4 by lia. rewrite O3 by lia. apply O. lia.
      * intros b Hb Hnw. unfold within in Hnw. cbn [mem with_mem]. rewrite O4 by lia. rewrite O3.
        -- rewrite O by lia. apply K. exact Hb.
        -- intros Hw. destruct Hb as [Hb | Hb]; [apply Hb, Hblk | apply (Hnl b); [|exact Hb]]; unfold within; lia.
    + exists s2, sub. assert (Es : substring v pos n = []).
      { unfold substring. destruct ((1 <=? pos) && (pos <=? len v)) eqn:Q; [|reflexivity].
        replace (Z.to_nat n) with 0%nat by lia. reflexivity. }
      split; [reflexivity|]. rewrite Es. split; [|split; [apply Regs|split]].
      * split; [apply operands3; [exact Hs2sp | exact W0 | exact W1 | exact W2]|].
        split; [exact I|]. unfold inside. rewrite len_nil. cbn [cf with_mem s2]. rewrite R1. lia.
      * eexists. apply Hist. unfold within. intros b Hb Hh. unfold in_heap in Hh. apply O. lia.
      * intros b Hb Hnw. unfold within in Hnw. cbn [mem with_mem s2]. rewrite O by lia. apply K. exact Hb.
Qed.

(** Releasing the most recent temporary string *)
Lemma consume_temp si s0 es s a n live al k :
  heap_cfg (cf si) -> init_heap si = HV s0 -> hist true s0 es s ((a, n) :: live) -> Z.land al HEAP_STRING <> 0 ->
  exists s', consume s a al k = k s' /\ regs s s' /\ hist true s0 (EDispose a n :: es) s' live /\
    forall b, ~ in_heap (cf s) b \/ in_live live b -> byte_of (mem s') b = byte_of (mem s) b.
Proof.
  intros Hc Hi H Hal. destruct (hist_inv _ _ _ _ _ Hc Hi H) as (bs & I1 & E1 & E2 & _).
  destruct bs as [|[[p z] n0] bs]; [discriminate E2|]. cbn [live_of map fst snd] in E2.
  fold (live_of (c_hpb (cf si)) bs) in E2. injection E2 as -> -> ->.
  rewrite <- E1 in *. destruct (free_inv s p z n0 bs I1) as (s' & F1 & F2 & F3 & _).
  assert (F : free_tmp s (c_hpb (cf s) + p + 8) al = HV (s', eNOERROR)) by (rewrite free_tmp_flag by exact Hal; exact F1).
  exists s'. unfold consume. rewrite F. cbn [hout]. split; [reflexivity|]. split; [exact (free_tmp_regs _ _ _ _ _ F)|]. split.
  - apply (h_step _ _ _ _ _ _ _ _ H). apply (h_tmp_free _ _ [] _ _ _ al); [reflexivity | exact Hal | exact F].
  - intros b Hb. destruct I1 as (Hcf & Hch & _ & Hf). pose proof (top_le _ _ _ _ Hf) as HT. cbn [top] in HT.
    cbn [chain] in Hch. destruct Hch as (Q1 & Q2 & Q3 & Q4 & Q5 & _ & _ & _ & Hch).
    apply (kept_stable s s' bs); [exact Hcf | exact Hch | lia | exact F3 | exact Hb].
Qed.

Lemma land_flag_set al : 32768 <= al < 65536 -> Z.land al HEAP_STRING <> 0.
Proof.
  intros H E. assert (B : Z.testbit (Z.land al HEAP_STRING) 15 = true).
  { rewrite Z.land_spec. unfold HEAP_STRING. change 0x8000 with (2 ^ 15). rewrite Z.pow2_bits_true by lia. rewrite andb_true_r.
    apply Z.testbit_true; [lia|]. change (2 ^ 15) with 32768. lia. }
  rewrite E in B. discriminate B.
Qed.
