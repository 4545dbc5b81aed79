(** Proofs about procedure call and return and the static chain. *)

From Coq Require Import ZArith Bool List Lia ZifyBool.
From Verif Require Import Words State Opcodes SetModel LongModel Machine WordLemmas StateLemmas VmSpec VmProofs MemProofs.
Import ListNotations.
Open Scope Z_scope.
Ltac Zify.zify_post_hook ::= Z.div_mod_to_equations.

Lemma frame_level_land s f l : frame_level s f l ->
  exists w, rd s (f / 2 + FLEVEL / 2) = Some w /\ Z.land w 0xff = l.
Proof.
  intros (w & k & Hr & Hw & Hl). exists w. change (FLEVEL / 2) with 4. split; [exact Hr|].
  change 0xff with (Z.ones 8). rewrite Z.land_ones by lia. change (2 ^ 8) with 256. subst w. lia.
Qed.

Lemma frame_level_unique s f l m : frame_level s f l -> frame_level s f m -> l = m.
Proof.
  intros H1 H2. apply frame_level_land in H1, H2.
  destruct H1 as (w & R1 & L1), H2 as (w' & R2 & L2). congruence.
Qed.

Lemma chain_level s f l : static_chain s f l -> frame_level s f l /\ 0 <= l < 256.
Proof. intros H; inversion H as [f' Hf|f' l' g m Hf]; subst; split; auto; destruct Hf as (?&?&?&?&?); lia. Qed.

(** Everything that [frame_search] can reach has a level that is not larger. *)
Lemma search_found s n : forall f l k h fuel,
  static_chain s f l -> 0 <= n -> reaches s f k h -> frame_level s h n ->
  (forall j g, (j < k)%nat -> reaches s f j g -> ~ frame_level s g n /\ ~ frame_level s g 0) ->
  (k < fuel)%nat ->
  frame_search fuel s n f = Found h.
Proof.
  intros f l k. revert f l. induction k as [|k IH]; intros f l h fuel Hc Hn Hr Hl Hno Hfuel.
  - inversion Hr; subst. destruct fuel as [|fuel]; [lia|]. cbn [frame_search].
    destruct (frame_level_land _ _ _ Hl) as (w & -> & ->).
    replace (n =? n) with true by lia.
    replace (negb (n =? 0) && (n =? 0)) with false by lia. reflexivity.
  - destruct fuel as [|fuel]; [lia|]. inversion Hr as [|f' g h' k' Hs Hr']; subst.
    destruct (chain_level _ _ _ Hc) as [Hfl Hl0].
    destruct (Hno 0%nat f ltac:(lia) (reaches_0 s f)) as [N1 N2].
    cbn [frame_search]. destruct (frame_level_land _ _ _ Hfl) as (w & -> & ->).
    assert (l <> n) by (intros ->; auto). assert (l <> 0) by (intros ->; auto).
    replace (negb (n =? 0) && (l =? 0)) with false by lia.
    replace (n =? l) with false by lia.
    change (FSLINK / 2) with 0. rewrite Z.add_0_r. unfold slink in Hs. rewrite Hs.
    assert (Hg : u16 (g - FSLINK) = g).
    { unfold FSLINK. rewrite Z.sub_0_r. apply u16_small. eapply rd_range; eauto. }
    rewrite Hg.
    inversion Hc as [f' Hf'|f' l' g' m Hf' Hpos Hs' Hm Hc']; subst.
    { exfalso. auto. }
    assert (g' = g) by (unfold slink in Hs'; congruence). subst g'.
    apply (IH g m h fuel Hc' Hn Hr' Hl); [|lia].
    intros j g0 Hj Hrj. apply (Hno (S j) g0 ltac:(lia)). econstructor; eauto.
Qed.

Lemma chain_found_or_not s f l : static_chain s f l -> forall n, 0 <= n ->
  (exists k h, reaches s f k h /\ frame_level s h n /\ (k <= Z.to_nat l)%nat /\
     forall j g, (j < k)%nat -> reaches s f j g -> ~ frame_level s g n /\ ~ frame_level s g 0) \/
  (n <> 0 /\ exists k h, reaches s f k h /\ frame_level s h 0 /\ (k <= Z.to_nat l)%nat /\
     forall j g, (j < k)%nat -> reaches s f j g -> ~ frame_level s g n /\ ~ frame_level s g 0).
Proof.
  induction 1 as [f Hf|f l g m Hf Hpos Hs Hm Hc IH]; intros n Hn.
  - destruct (Z.eq_dec n 0) as [->|N].
    + left. exists O, f. repeat split; try constructor; auto; lia.
    + right. split; [exact N|]. exists O, f. repeat split; try constructor; auto; lia.
  - assert (Hf0 : ~ frame_level s f 0) by (intros H0; pose proof (frame_level_unique _ _ _ _ Hf H0); lia).
    pose proof (proj2 (chain_level _ _ _ Hc)) as Hmr.
    assert (Step : forall k h, reaches s g k h ->
       (forall j g0, (j < k)%nat -> reaches s g j g0 -> ~ frame_level s g0 n /\ ~ frame_level s g0 0) ->
       ~ frame_level s f n ->
       forall j g0, (j < S k)%nat -> reaches s f j g0 -> ~ frame_level s g0 n /\ ~ frame_level s g0 0).
    { intros k h Hr Hno Hfn [|j] g0 Hj Hrj.
      - inversion Hrj; subst; auto.
      - inversion Hrj as [|f' g' h' k' Hs' Hr']; subst.
        assert (g' = g) by (unfold slink in *; congruence). subst g'.
        apply (Hno j g0); [lia|exact Hr']. }
    destruct (Z.eq_dec n l) as [->|N].
    + left. exists O, f. repeat split; try constructor; auto; lia.
    + assert (Hfn : ~ frame_level s f n) by (intros H0; pose proof (frame_level_unique _ _ _ _ Hf H0); lia).
      destruct (IH n Hn) as [(k & h & Hr & Hl & Hk & Hno)|(N0 & k & h & Hr & Hl & Hk & Hno)].
      * left. exists (S k), h. split; [econstructor; eauto|]. split; [exact Hl|]. split; [lia|].
        apply (Step k h); auto.
      * right. split; [exact N0|]. exists (S k), h. split; [econstructor; eauto|]. split; [exact Hl|]. split; [lia|].
        apply (Step k h); auto.
Qed.

Lemma search_notfound s n : forall f l k h fuel,
  static_chain s f l -> n <> 0 -> reaches s f k h -> frame_level s h 0 ->
  (forall j g, (j < k)%nat -> reaches s f j g -> ~ frame_level s g n /\ ~ frame_level s g 0) ->
  (k < fuel)%nat ->
  frame_search fuel s n f = NotFound.
Proof.
  intros f l k. revert f l. induction k as [|k IH]; intros f l h fuel Hc Hn Hr Hl Hno Hfuel.
  - inversion Hr; subst. destruct fuel as [|fuel]; [lia|]. cbn [frame_search].
    destruct (frame_level_land _ _ _ Hl) as (w & -> & ->).
    replace (negb (n =? 0) && (0 =? 0)) with true by lia. reflexivity.
  - destruct fuel as [|fuel]; [lia|]. inversion Hr as [|f' g h' k' Hs Hr']; subst.
    destruct (chain_level _ _ _ Hc) as [Hfl Hl0].
    destruct (Hno 0%nat f ltac:(lia) (reaches_0 s f)) as [N1 N2].
    cbn [frame_search]. destruct (frame_level_land _ _ _ Hfl) as (w & -> & ->).
    assert (l <> n) by (intros ->; auto). assert (l <> 0) by (intros ->; auto).
    replace (negb (n =? 0) && (l =? 0)) with false by lia.
    replace (n =? l) with false by lia.
    change (FSLINK / 2) with 0. rewrite Z.add_0_r. unfold slink in Hs. rewrite Hs.
    assert (Hg : u16 (g - FSLINK) = g).
    { unfold FSLINK. rewrite Z.sub_0_r. apply u16_small. eapply rd_range; eauto. }
    rewrite Hg.
    inversion Hc as [f' Hf'|f' l' g' m Hf' Hpos Hs' Hm Hc']; subst.
    { exfalso. auto. }
    assert (g' = g) by (unfold slink in Hs'; congruence). subst g'.
    apply (IH g m h fuel Hc' Hn Hr' Hl); [|lia].
    intros j g0 Hj Hrj. apply (Hno (S j) g0 ltac:(lia)). econstructor; eauto.
Qed.

(** Levels strictly decrease along a well-formed chain, so that a level occurs
    at most once before the end. *)
Lemma reaches_app s f j g k h : reaches s f j g -> reaches s g k h -> reaches s f (j + k) h.
Proof. induction 1; cbn [Nat.add]; intros; [assumption|econstructor; eauto]. Qed.
Lemma reaches_fun s f k g h : reaches s f k g -> reaches s f k h -> g = h.
Proof. intros H1%follow_reaches H2%follow_reaches. congruence. Qed.
Lemma reaches_split s k : forall f h j, reaches s f k h -> (j <= k)%nat -> 
  exists g, reaches s f j g /\ reaches s g (k - j) h.
Proof.
  induction k as [|k IH]; intros f h j H Hj.
  - assert (j = O) by lia. subst. exists f. split; [constructor|]. cbn. exact H.
  - destruct j as [|j].
    + exists f. split; [constructor|]. exact H.
    + inversion H as [|f' g0 h' k' Hs Hr]; subst. destruct (IH g0 h j Hr ltac:(lia)) as (g & G1 & G2).
      exists g. split; [econstructor; eauto|exact G2].
Qed.

(** Frame written by a call *)
Lemma pcal_writes s frame level :
  0 <= sp s -> sp s + 10 < c_ssz (cf s) -> c_ssz (cf s) <= 65536 -> c_ssz (cf s) mod 2 = 0 ->
  frame_search search_bound s (u16 (level - 1)) (u16 (fp s - FSLINK)) = Found frame ->
  level <> 0 ->
  procedure_call s level =
    Ok (with_fp (with_lsp (with_mem (with_sp s (sp s + 10))
         (upd (upd (upd (upd (upd (mem s) (sp s / 2 + 1) (u16 frame)) (sp s / 2 + 2) (u16 (fp s)))
            (sp s / 2 + 3) (u16 (pc s + 4))) (sp s / 2 + 4) (u16 (csp s)))
            (sp s / 2 + 5) (u16 (Z.lor (Z.shiftl (lsp s) 8) level)))) level) (sp s + 2)).
Proof.
  intros H0 H1 H2 He Hf Hl. unfold procedure_call. replace (level =? 0) with false by lia.
  rewrite Hf. cbn [sp with_sp]. unfold FSLINK, FDLINK, FRET, FCSP, FLEVEL, FSIZE.
  rewrite (u16_small (sp s + 2)) by lia. rewrite (u16_small (sp s + 2 + (10 - 2))) by lia.
  rewrite (u16_small (sp s + 2 + 0)) by lia.
  replace ((sp s + 2) / 2) with (sp s / 2 + 1) by lia.
  change (0 / 2) with 0. change (2 / 2) with 1. change (4 / 2) with 2. change (6 / 2) with 3. change (8 / 2) with 4.
  replace (sp s / 2 + 1 + 0) with (sp s / 2 + 1) by lia.
  replace (sp s / 2 + 1 + 1) with (sp s / 2 + 2) by lia.
  replace (sp s / 2 + 1 + 2) with (sp s / 2 + 3) by lia.
  replace (sp s / 2 + 1 + 3) with (sp s / 2 + 4) by lia.
  replace (sp s / 2 + 1 + 4) with (sp s / 2 + 5) by lia.
  replace (sp s + 2 + (10 - 2)) with (sp s + 10) by lia.
  replace (sp s + 2 + 0) with (sp s + 2) by lia.
  do 5 (rewrite wr_in by (apply in_word_iff; cbn [cf with_mem with_sp]; lia); cbn [bindo mem cf with_mem with_sp]).
  reflexivity.
Qed.

Lemma search_bound_big : (256 < search_bound)%nat.
Proof. unfold search_bound. apply Nat2Z.inj_lt. rewrite Z2Nat.id by lia. lia. Qed.

Lemma chain_search s f l n : static_chain s f l -> 0 <= n ->
  (exists h, frame_search search_bound s n f = Found h /\ innermost s f n h) \/
  (frame_search search_bound s n f = NotFound /\
   n <> 0 /\ exists k h, reaches s f k h /\ frame_level s h 0 /\
     forall j g, (j < k)%nat -> reaches s f j g -> ~ frame_level s g n /\ ~ frame_level s g 0).
Proof.
  intros Hc Hn. pose proof (proj2 (chain_level _ _ _ Hc)) as Hl. pose proof search_bound_big as HB.
  destruct (chain_found_or_not s f l Hc n Hn) as [(k & h & Hr & Hh & Hk & Hno)|(N0 & k & h & Hr & Hh & Hk & Hno)].
  - left. exists h. split.
    + eapply search_found; eauto. lia.
    + exists k. split; [exact Hr|]. split; [exact Hh|]. intros j g Hj Hg. apply (Hno j g Hj Hg).
  - right. split; [eapply search_notfound; eauto; lia|]. split; [exact N0|]. exists k, h. auto.
Qed.

Lemma innermost_unique s f n h h' : innermost s f n h -> innermost s f n h' -> h = h'.
Proof.
  intros (k & Hr & Hl & Hno) (k' & Hr' & Hl' & Hno').
  destruct (lt_eq_lt_dec k k') as [[L|E]|L].
  - exfalso. apply (Hno' k h L Hr Hl).
  - subst k'. eapply reaches_fun; eauto.
  - exfalso. apply (Hno k' h' L Hr' Hl').
Qed.

Lemma ret_pops s w1 w2 w3 w4 w5 : 10 <= sp s < 65536 ->
  tos s 0 = Some w5 -> tos s 1 = Some w4 -> tos s 2 = Some w3 -> tos s 3 = Some w2 -> tos s 4 = Some w1 ->
  exec_ret s = Ok (mkSt (mem s) (cf s) (sp s - 10) w4 w2 w3 (w5 / 256) (fch s)).
Proof.
  intros Hs H5 H4 H3 H2 H1. unfold exec_ret.
  assert (P : forall t v k, sp t = sp s - 2 * k -> 0 <= k <= 4 -> mem t = mem s -> cf t = cf s ->
    tos s k = Some v -> pop t = Some (v, with_sp t (sp s - 2 * k - 2))).
  { intros t v k Hsp Hk Hm Hcf Hv. rewrite (pop_eq _ v).
    - rewrite Hsp. rewrite u16_small by lia. reflexivity.
    - unfold tos, rd, in_word in *. rewrite Hcf, Hm, Hsp.
      replace ((sp s - 2 * k) / 2 - 0) with (sp s / 2 - k) by lia. exact Hv. }
  rewrite (P s w5 0) by (assumption || reflexivity || (cbn [with_sp sp with_csp with_pc with_lsp]; lia)). cbn [bindo].
  rewrite (P _ w4 1) by (assumption || reflexivity || (cbn [with_sp sp with_csp with_pc with_lsp]; lia)). cbn [bindo].
  rewrite (P _ w3 2) by (assumption || reflexivity || (cbn [with_sp sp with_csp with_pc with_lsp]; lia)). cbn [bindo].
  rewrite (P _ w2 3) by (assumption || reflexivity || (cbn [with_sp sp with_csp with_pc with_lsp]; lia)). cbn [bindo].
  unfold discard. cbn [sp with_fp with_pc with_sp with_csp with_lsp].
  rewrite u16_small by lia. 
  match goal with |- Ok (with_sp _ ?e) = _ => replace e with (sp s - 10) by lia end.
  reflexivity.
Qed.

Lemma level_word l level : 0 <= l < 256 -> 0 <= level < 256 ->
  u16 (Z.lor (Z.shiftl l 8) level) / 256 = l /\
  Z.land (u16 (Z.lor (Z.shiftl l 8) level)) 255 = level.
Proof.
  intros Hl Hv.
  assert (0 <= Z.lor (Z.shiftl l 8) level < 65536).
  { apply lor16; [rewrite Z.shiftl_mul_pow2 by lia|]; lia. }
  rewrite u16_small by assumption. split.
  - change 256 with (2 ^ 8). rewrite <- Z.shiftr_div_pow2 by lia.
    rewrite Z.shiftr_lor, Z.shiftr_shiftl_l by lia. rewrite Z.shiftl_0_r.
    rewrite (Z.shiftr_div_pow2 level) by lia. change (2 ^ 8) with 256.
    replace (level / 256) with 0 by lia. apply Z.lor_0_r.
  - rewrite Z.land_lor_distr_l. change 255 with (Z.ones 8).
    rewrite !Z.land_ones by lia. change (2 ^ 8) with 256.
    rewrite Z.shiftl_mul_pow2 by lia. change (2 ^ 8) with 256.
    rewrite Z.mod_mul by lia. rewrite (Z.mod_small level) by lia. apply Z.lor_0_l.
Qed.

Lemma exec_pcal s level target : exec_insn s (mkOp oPCAL level target) =
  match procedure_call s level with
  | Ok s => Ok (with_pc s target) | Err e s => Err e (with_pc s target) | r => r end.
Proof. reflexivity. Qed.

(** What a successful call does *)
Lemma pcal_ok s level target s1 :
  room s 5 -> 0 <= fp s < 65536 -> 0 <= csp s < 65536 -> 0 <= lsp s < 256 -> 0 <= level < 256 ->
  exec_insn s (mkOp oPCAL level target) = Ok s1 ->
  pc s1 = target /\ sp s1 = sp s + 10 /\ fp s1 = sp s + 2 /\ csp s1 = csp s /\ cf s1 = cf s /\
  lsp s1 = level /\ fch s1 = fch s /\
  (forall i, ~ (sp s / 2 < i <= sp s / 2 + 5) -> rd s1 i = rd s i) /\
  (exists frame, frame_search search_bound s (u16 (level - 1)) (fp s) = Found frame /\
     rd s1 (sp s / 2 + 1) = Some (u16 frame)) /\
  rd s1 (sp s / 2 + 2) = Some (fp s) /\
  rd s1 (sp s / 2 + 3) = Some (u16 (pc s + 4)) /\
  rd s1 (sp s / 2 + 4) = Some (csp s) /\
  (exists w, rd s1 (sp s / 2 + 5) = Some w /\ w / 256 = lsp s /\ Z.land w 255 = level).
Proof.
  intros (R0 & R1 & R2 & R3) Hfp Hcsp Hlsp Hlev. rewrite exec_pcal.
  assert (Efp : u16 (fp s - FSLINK) = fp s) by (unfold FSLINK; rewrite Z.sub_0_r; apply u16_small; lia).
  destruct (Z.eq_dec level 0) as [->|Hne]; [discriminate|].
  destruct (frame_search search_bound s (u16 (level - 1)) (fp s)) as [frame| | |] eqn:Ef.
  - rewrite (pcal_writes s frame level) by (try rewrite Efp; assumption || lia).
    intros [= <-].
    assert (RD : forall m i, (0 <= i < c_ssz (cf s) / 2) ->
      rd (with_pc (with_fp (with_lsp (with_mem (with_sp s (sp s + 10)) m) level) (sp s + 2)) target) i = Some (u16 (m i))).
    { intros m i Hi. unfold rd. replace (in_word _ i) with true; [reflexivity|].
      symmetry; apply in_word_iff; cbn [cf with_pc with_fp with_lsp with_mem with_sp]; lia. }
    assert (Bnd : sp s / 2 + 5 < c_ssz (cf s) / 2) by lia.
    cbn [pc sp fp csp cf lsp fch with_pc with_fp with_lsp with_mem with_sp].
    repeat split; try lia.
    + intros i Hi. unfold rd. change (in_word _ i) with (in_word s i) at 1. cbn [mem with_pc with_fp with_lsp with_mem with_sp].
      rewrite !upd_other by lia. reflexivity.
    + exists frame. split; [reflexivity|]. rewrite RD by lia. rewrite !upd_other by lia. rewrite upd_same, u16_u16. reflexivity.
    + rewrite RD by lia. rewrite !upd_other by lia. rewrite upd_same, u16_u16, u16_small by lia. reflexivity.
    + rewrite RD by lia. rewrite !upd_other by lia. rewrite upd_same, u16_u16. reflexivity.
    + rewrite RD by lia. rewrite !upd_other by lia. rewrite upd_same, u16_u16, u16_small by lia. reflexivity.
    + eexists. rewrite RD by lia. rewrite upd_same. split; [reflexivity|].
      rewrite u16_u16. apply level_word; lia.
  - unfold procedure_call. replace (level =? 0) with false by lia. rewrite Efp, Ef. discriminate.
  - unfold procedure_call. replace (level =? 0) with false by lia. rewrite Efp, Ef. discriminate.
  - unfold procedure_call. replace (level =? 0) with false by lia. rewrite Efp, Ef. discriminate.
Qed.

Lemma call_return s level target s1 s2 x y :
  room s 5 -> 0 <= fp s < 65536 -> 0 <= csp s < 65536 -> 0 <= lsp s < 256 -> 0 <= level < 256 ->
  exec_insn s (mkOp oPCAL level target) = Ok s1 ->
  cf s2 = cf s1 -> sp s2 = sp s1 ->
  (forall i, fp s1 / 2 <= i < fp s1 / 2 + 5 -> rd s2 i = rd s1 i) ->
  exists s3, exec_insn s2 (mkOp oRET x y) = Ok s3 /\
    pc s3 = (pc s + 4) mod 65536 /\ sp s3 = sp s /\ fp s3 = fp s /\ csp s3 = csp s /\
    lsp s3 = lsp s /\ cf s3 = cf s /\ (forall i, rd s3 i = rd s2 i).
Proof.
  intros R Hfp Hcsp Hlsp Hlev H1 Hcf Hsp Hhdr.
  destruct (pcal_ok _ _ _ _ R Hfp Hcsp Hlsp Hlev H1) as
    (P1 & P2 & P3 & P4 & P5 & P6 & P7 & P8 & (frame & Pf & P9) & P10 & P11 & P12 & (w & P13 & P14 & P15)).
  destruct R as (R0 & R1 & R2 & R3).
  change (exec_insn s2 (mkOp oRET x y)) with (exec_ret s2).
  rewrite (ret_pops s2 (u16 frame) (fp s) (u16 (pc s + 4)) (csp s) w).
  - eexists; split; [reflexivity|]. cbn [pc sp fp csp lsp cf].
    repeat split; try lia; try congruence.
  - lia.
  - unfold tos. rewrite Hhdr by lia. rewrite <- P13. f_equal. lia.
  - unfold tos. rewrite Hhdr by lia. rewrite <- P12. f_equal. lia.
  - unfold tos. rewrite Hhdr by lia. rewrite <- P11. f_equal. lia.
  - unfold tos. rewrite Hhdr by lia. rewrite <- P10. f_equal. lia.
  - unfold tos. rewrite Hhdr by lia. rewrite <- P9. f_equal. lia.
Qed.

(** Calls succeed on a well-formed chain exactly if the enclosing level is
    active. *)
Lemma pcal_chain s level target l :
  room s 5 -> 0 <= fp s < 65536 -> 0 <= csp s < 65536 -> 0 <= lsp s < 256 -> 0 < level < 256 ->
  static_chain s (fp s) l ->
  (exists s1 h, exec_insn s (mkOp oPCAL level target) = Ok s1 /\ innermost s (fp s) (level - 1) h /\
     slink s1 (fp s1) h /\ frame_level s1 (fp s1) level) \/
  (exists s1, exec_insn s (mkOp oPCAL level target) = Err eNESTINGLEVEL s1 /\ 
     (forall i, rd s1 i = rd s i) /\
     forall k h, reaches s (fp s) k h -> frame_level s h (level - 1) ->
       exists j g, (j < k)%nat /\ reaches s (fp s) j g /\ frame_level s g 0).
Proof.
  intros R Hfp Hcsp Hlsp Hlev Hc.
  assert (Efp : u16 (fp s - FSLINK) = fp s) by (unfold FSLINK; rewrite Z.sub_0_r; apply u16_small; lia).
  assert (El : u16 (level - 1) = level - 1) by (apply u16_small; lia).
  destruct (chain_search s (fp s) l (level - 1) Hc ltac:(lia)) as [(h & Hf & Hin)|(Hf & N0 & k & h & Hr & Hh & Hno)].
  - left. 
    assert (exists s1, exec_insn s (mkOp oPCAL level target) = Ok s1) as (s1 & E).
    { rewrite exec_pcal. destruct R as (R0 & R1 & R2 & R3).
      rewrite (pcal_writes s h level) by (try rewrite Efp; try rewrite El; assumption || lia). eexists; reflexivity. }
    exists s1, h. split; [exact E|]. split; [exact Hin|].
    destruct (pcal_ok s level target s1 R Hfp Hcsp Hlsp ltac:(lia) E) as
     (P1 & P2 & P3 & P4 & P5 & P6 & P7 & P8 & (frame & Pf & P9) & P10 & P11 & P12 & (w & P13 & P14 & P15)).
    rewrite El in Pf. rewrite Hf in Pf. injection Pf as <-.
    destruct R as (R0 & R1 & R2 & R3).
    assert (Hh : 0 <= h < 65536).
    { destruct Hin as (k & Hr & _). clear -Hr Hfp. induction Hr as [|f g h k Hs Hr IH]; [exact Hfp|].
      apply IH. eapply rd_range; eauto. }
    unfold slink, frame_level. replace (fp s1 / 2) with (sp s / 2 + 1) by lia. split.
    + rewrite P9. rewrite u16_small by lia. reflexivity.
    + exists w, (lsp s). replace (sp s / 2 + 1 + 4) with (sp s / 2 + 5) by lia. split; [exact P13|].
      change 255 with (Z.ones 8) in P15. rewrite Z.land_ones in P15 by lia. change (2 ^ 8) with 256 in P15. lia.
  - right. exists (with_pc s target). rewrite exec_pcal. unfold procedure_call.
    replace (level =? 0) with false by lia. rewrite Efp, El, Hf. split; [reflexivity|]. split; [reflexivity|].
    intros k' h' Hr' Hl'.
    exists k, h. split; [|auto].
    destruct (le_lt_dec k' k) as [L|L]; [|exact L]. exfalso.
    destruct (Nat.eq_dec k' k) as [->|Ne].
    + assert (h' = h) by (eapply reaches_fun; eauto). subst h'.
      pose proof (frame_level_unique _ _ _ _ Hl' Hh). lia.
    + destruct (Hno k' h' ltac:(lia) Hr') as [X _]. exact (X Hl').
Qed.

(** The address of a variable [k] levels up *)
Lemma las_correct s lvl off a : room s 1 -> frame_ea s lvl off 0 a ->
  exists s', exec_insn s (mkOp oLAS lvl off) = Ok s' /\ stack_effect s s' 0 [a] /\ pc s' = u16 (pc s + 4).
Proof.
  intros R H. change (exec_insn s (mkOp oLAS lvl off)) with (next 4 (exec32 LAS s lvl off)). cbn [exec32].
  rewrite (frame_ea_base _ _ _ _ H). cbn [bindo]. apply ret_next. apply push_effect; [exact R|].
  destruct H as (g & z & _ & _ & [Hr _]). lia.
Qed.
