(** Runs of programs that dispose of blocks in reverse order *)

From Coq Require Import ZArith Bool List Lia ZifyBool.
From Verif Require Import Words State WordLemmas StateLemmas HeapModel HeapSpec HeapProofs HeapInv.
Import ListNotations.
Open Scope Z_scope.
Local Ltac Zify.zify_post_hook ::= Z.div_mod_to_equations.

(** A change of registers and of memory below of the heap *)
Lemma below_user s s' live : cf s' = cf s -> fch s' = fch s ->
  (forall i, c_hpb (cf s) / 2 <= i -> mem s' i = mem s i) -> user_step s live s'.
Proof.
  intros H1 H2 H3. split; [exact H1|]. split; [exact H2|]. intros b Hb _. unfold byte_of.
  unfold in_heap in Hb. rewrite H3 by lia. reflexivity.
Qed.

Lemma kept_byte s s' bs b : heap_cfg (cf s) -> chain (wd s) (c_hpb (cf s)) bs -> kept s s' bs ->
  in_live (live_of (c_hpb (cf s)) bs) b -> byte_of (mem s') b = byte_of (mem s) b.
Proof.
  intros Hc Hch (_ & _ & K) Hl. apply in_live_of in Hl. destruct Hl as (p & z & n & Hin & Hb).
  apply heap_cfg_facts in Hc. pose proof (chain_in _ _ _ _ _ _ Hch Hin). pose proof (chain_top _ _ _ Hch).
  unfold byte_of. rewrite K by lia. reflexivity.
Qed.

(** The result of the two calls *)
Lemma os_new_inv s bs n : inv s bs -> 0 <= sp s < c_hpb (cf s) -> tos s 0 = Some n -> n <= 65520 ->
  exists s', cf s' = cf s /\ sp s' = sp s /\
    (forall b, in_live (live_of (c_hpb (cf s)) bs) b -> byte_of (mem s') b = byte_of (mem s) b) /\
    ((os_new s = Err eNEWFAILED s' /\ inv s' bs /\ forall i, c_hpb (cf s) / 2 <= i -> mem s' i = mem s i) \/
     (exists z, os_new s = Ok s' /\ tos s' 0 = Some (c_hpb (cf s) + top bs + 8) /\ inv s' ((top bs, z, n) :: bs))).
Proof.
  intros Hi Hsp Hn Hle. assert (Hi' := Hi). destruct Hi' as (Hc & Hch & Ht & Hf).
  pose proof (heap_cfg_facts _ Hc) as Hcf.
  pose proof (tos_range _ _ _ Hn) as Hr.
  unfold os_new. rewrite (pop_eq _ _ Hn). cbn [bindo]. set (s1 := with_sp s (u16 (sp s - 2))).
  unfold heap_new.
  (* pushing the result *)
  assert (Push : forall x v, cf x = cf s -> sp x = u16 (sp s - 2) ->
            push x v = Some (with_mem (with_sp x (sp s)) (upd (mem x) (sp s / 2) (u16 v)))).
  { intros x v E1 E2. unfold push. rewrite E2, u16_add_l. replace (sp s - 2 + 2) with (sp s) by lia.
    rewrite u16_small by lia. cbn [sp with_sp]. rewrite wr_in; [reflexivity|].
    apply in_word_iff. cbn [cf with_sp]. rewrite E1. lia. }
  assert (PB : forall m v b, in_live (live_of (c_hpb (cf s)) bs) b -> byte_of (upd m (sp s / 2) v) b = byte_of m b).
  { intros m v b Hb. apply byte_of_upd_other. apply in_live_of in Hb. destruct Hb as (p & z & n' & Hin & Hb).
    pose proof (chain_in _ _ _ _ _ _ Hch Hin). lia. }
  assert (I1 : inv s1 bs).
  { apply (user_inv s); [exact Hi|]. apply below_user; reflexivity. }
  assert (Fail : forall x, x = s1 ->
     exists s', cf s' = cf s /\ sp s' = sp s /\
     (forall b, in_live (live_of (c_hpb (cf s)) bs) b -> byte_of (mem s') b = byte_of (mem s) b) /\
     (s2 <- push x 0 ;; if 0 <? 0 then Ok s2 else Err eNEWFAILED s2) = Err eNEWFAILED s' /\ inv s' bs /\
     forall i, c_hpb (cf s) / 2 <= i -> mem s' i = mem s i).
  { intros x ->. rewrite Push by reflexivity. cbn [bindo]. replace (0 <? 0) with false by reflexivity.
    eexists. split; [|split; [|split; [|split; [reflexivity|]]]].
    - reflexivity.
    - reflexivity.
    - intros b Hb. cbn [mem with_mem]. apply PB. exact Hb.
    - assert (U : forall i, c_hpb (cf s) / 2 <= i -> upd (mem s) (sp s / 2) (u16 0) i = mem s i)
        by (intros i Hge; apply upd_other; lia).
      split; [|exact U]. apply (user_inv s); [exact Hi|]. apply below_user; [reflexivity|reflexivity|exact U]. }
  destruct (0 <? n) eqn:En.
  2:{ cbn [hout]. destruct (Fail s1 eq_refl) as (s' & F1 & F2 & F3 & F4 & F5).
      exists s'. split; [exact F1|]. split; [exact F2|]. split; [exact F3|]. left. split; [exact F4 | exact F5]. }
  pose proof (alloc_inv s1 bs n I1 ltac:(lia)) as HA. cbv zeta in HA.
  change (cf s1) with (cf s) in HA.
  destruct (chunk_size n <=? tsize (cf s) - top bs) eqn:Ef.
  - destruct HA as (s2 & z & EA & I2 & K). rewrite EA. cbn [hout].
    destruct K as (K1 & K2 & K3). change (cf s1) with (cf s) in *.
    rewrite Push by assumption. cbn [bindo].
    pose proof (chain_top _ _ _ Hch) as Htop. pose proof (top_le _ _ _ _ Hf) as HT.
    replace (0 <? c_hpb (cf s) + top bs + 8) with true by lia.
    eexists. split; [|split; [|split; [|right; exists z; split; [reflexivity|split]]]].
    + exact K1.
    + reflexivity.
    + intros b Hb. cbn [mem with_mem]. rewrite PB by exact Hb.
      apply (kept_byte s1 s2 bs); [exact Hc|exact Hch| |exact Hb]. split; [exact K1|]. split; [exact K2 | exact K3].
    + unfold tos. cbn [sp with_mem with_sp]. rewrite Z.sub_0_r. rewrite rd_in.
      * cbn [mem with_mem]. rewrite upd_same, !u16_u16. rewrite u16_small; [reflexivity|]. lia.
      * apply in_word_iff. cbn [cf with_mem with_sp]. rewrite K1. lia.
    + apply (user_inv s2); [exact I2|]. apply below_user; [reflexivity|reflexivity|].
      rewrite K1. intros i Hge. cbn [mem with_mem with_sp]. apply upd_other. lia.
  - rewrite HA. cbn [hout]. destruct (Fail s1 eq_refl) as (s' & F1 & F2 & F3 & F4 & F5).
    exists s'. split; [exact F1|]. split; [exact F2|]. split; [exact F3|]. left. split; [exact F4 | exact F5].
Qed.

Lemma os_dispose_inv s p z n bs : inv s ((p, z, n) :: bs) -> tos s 0 = Some (c_hpb (cf s) + p + 8) ->
  exists s', os_dispose s = Ok s' /\ cf s' = cf s /\ inv s' bs /\
    (forall b, in_live (live_of (c_hpb (cf s)) bs) b -> byte_of (mem s') b = byte_of (mem s) b) /\
    forall k, k <> (c_hpb (cf s) + p) / 2 -> k <> (c_hpb (cf s) + p) / 2 + 4 -> k <> (c_hpb (cf s) + p) / 2 + 5 ->
              k <> (c_hpb (cf s) + tsize (cf s)) / 2 + 1 -> mem s' k = mem s k.
Proof.
  intros Hi Ha. unfold os_dispose. rewrite (pop_eq _ _ Ha). cbn [bindo]. set (s1 := with_sp s (u16 (sp s - 2))).
  assert (I1 : inv s1 ((p, z, n) :: bs)) by (apply (user_inv s); [exact Hi|]; apply below_user; reflexivity).
  destruct (free_inv s1 p z n bs I1) as (s2 & E & I2 & K & KW). change (cf s1) with (cf s) in *.
  unfold heap_dispose. rewrite E. cbn [hout]. replace (eNOERROR =? eNOERROR) with true by reflexivity.
  exists s2. split; [reflexivity|]. split; [exact (proj1 K)|]. split; [exact I2|]. split; [|exact KW].
  intros b Hb. destruct I1 as (Hc & Hch & _). cbn [chain] in Hch.
  apply (kept_byte s1 s2 bs); [exact Hc| |exact K|exact Hb]. apply Hch.
Qed.

(** Temporary strings *)
Lemma alloc_tmp_inv s bs n : inv s bs ->
  exists s', kept s s' bs /\
    ((alloc_tmp s n = HV (s, 0, 0) /\ s' = s) \/
     (0 < n <= 4095 /\ exists z, alloc_tmp s n = HV (s', c_hpb (cf s) + top bs + 8, Z.lor n HEAP_STRING) /\ inv s' ((top bs, z, n) :: bs))).
Proof.
  intros Hi. assert (Hi' := Hi). destruct Hi' as (Hc & Hch & Ht & Hf).
  pose proof (heap_cfg_facts _ Hc) as Hcf. pose proof (chain_top _ _ _ Hch) as Htop.
  assert (Refl : kept s s bs) by (split; [reflexivity|]; split; [reflexivity|]; intros; reflexivity).
  unfold alloc_tmp, STRING_BUFFER_MAX. destruct ((0 <? n) && (n <=? 0x0fff)) eqn:En.
  2:{ exists s. split; [exact Refl|]. left. split; reflexivity. }
  pose proof (alloc_inv s bs n Hi ltac:(lia)) as HA. cbv zeta in HA.
  destruct (chunk_size n <=? tsize (cf s) - top bs) eqn:Ef.
  - destruct HA as (s2 & z & EA & I2 & K). exists s2. split; [exact K|]. right. split; [lia|]. exists z. split; [|exact I2].
    rewrite EA. cbn [hbind]. replace (0 <? c_hpb (cf s) + top bs + 8) with true by lia. reflexivity.
  - exists s. split; [exact Refl|]. left. split; [|reflexivity]. rewrite HA. reflexivity.
Qed.

Lemma free_tmp_flag s a al : Z.land al HEAP_STRING <> 0 -> free_tmp s a al = free s a.
Proof. intros H. unfold free_tmp. replace (Z.land al HEAP_STRING =? 0) with false by lia. reflexivity. Qed.

(** A header that says "not in use", in the free part *)
Definition cleared (s : st) (bs : list (Z * Z * Z)) (a : Z) : Prop :=
  exists o, a = c_hpb (cf s) + o + 8 /\ top bs <= o /\ o + 24 <= tsize (cf s) /\ o mod 8 = 0 /\
            wd s ((c_hpb (cf s) + o) / 2) < 32768.

Lemma dispose_cleared s s' p z n bs : inv s ((p, z, n) :: bs) -> cf s' = cf s -> inv s' bs ->
  (forall k, k <> (c_hpb (cf s) + p) / 2 -> k <> (c_hpb (cf s) + p) / 2 + 4 -> k <> (c_hpb (cf s) + p) / 2 + 5 ->
             k <> (c_hpb (cf s) + tsize (cf s)) / 2 + 1 -> mem s' k = mem s k) ->
  (forall a, cleared s ((p, z, n) :: bs) a -> cleared s' bs a) /\
  (forall a n', EDispose (c_hpb (cf s) + p + 8) n = EDispose a n' -> cleared s' bs a).
Proof.
  intros Hi E2 E3 E5.
  destruct Hi as (Hc & Hch & _ & Hf). pose proof (heap_cfg_facts _ Hc) as Hcf.
  pose proof (top_le _ _ _ _ Hf) as HT. pose proof (chain_top _ _ _ Hch) as Htop. cbn [top] in HT, Htop.
  cbn [chain] in Hch. destruct Hch as (R1 & R2 & R3 & R4 & R5 & _ & _ & _ & Hch).
  assert (New : cleared s' bs (c_hpb (cf s) + p + 8)).
  { exists p. rewrite E2. split; [reflexivity|]. split; [lia|]. split; [lia|]. split; [pose proof (chain_top _ _ _ Hch); lia|].
    destruct E3 as (_ & _ & _ & F). rewrite E2 in F.
    destruct F as [[F _] | (F1 & F2 & F3 & _)]; [lia|]. rewrite <- R5 in F3. rewrite F3.
    pose proof (chain_top _ _ _ Hch). lia. }
  split; [|intros a' n' E; injection E as <- <-; exact New].
  intros a (o & H1 & H2 & H3 & H4 & H5). exists o. rewrite E2.
  cbn [top] in H2. split; [exact H1|]. split; [lia|]. split; [exact H3|]. split; [exact H4|].
  unfold wd. rewrite E5; [exact H5|lia..].
Qed.

Lemma hstep_inv s bs e s' live' : inv s bs -> hstep true s (live_of (c_hpb (cf s)) bs) e s' live' ->
  exists bs', inv s' bs' /\ cf s' = cf s /\ live' = live_of (c_hpb (cf s)) bs' /\
    (forall a, cleared s bs a -> match e with ENew _ _ => True | _ => cleared s' bs' a end) /\
    (forall a n, e = EDispose a n -> cleared s' bs' a).
Proof.
  intros Hi Hs. remember (live_of (c_hpb (cf s)) bs) as live eqn:El.
  destruct Hs as [live s' Hu | live n s' a Hsp Hn Hle Hok Ha | live n e s' Hsp Hn Hle Hok | l1 a n l2 s' Hl Ha Hok
    | live n s' a al Hok Ha | live n s' al Hok | l1 a n l2 al s' Hl Hal Hok].
  - subst live. exists bs. split; [exact (user_inv _ _ _ Hi Hu)|]. destruct Hu as (E1 & E2 & E3).
    split; [exact E1|]. split; [reflexivity|]. split; [|intros a n E; discriminate E].
    intros a (o & H1 & H2 & H3 & H4 & H5). exists o. rewrite E1. repeat (apply conj; [assumption|]).
    destruct Hi as (Hc & Hch & _ & Hf). pose proof (heap_cfg_facts _ Hc) as Hcf. pose proof (chain_top _ _ _ Hch) as Htop.
    unfold wd. rewrite (word_bytes (mem s) (mem s')); [exact H5| |];
      (apply E3; [unfold in_heap; lia|]); intros Hb; apply in_live_of in Hb; destruct Hb as (p & z & n & Hin & Hb);
      pose proof (chain_in _ _ _ _ _ _ Hch Hin); lia.
  - subst live. destruct (os_new_inv s bs n Hi Hsp Hn (Hle eq_refl)) as (s2 & E1 & E2 & E3 & [[E4 _] | (z & E4 & E5 & E6)]).
    + rewrite Hok in E4. discriminate E4.
    + rewrite Hok in E4. injection E4 as <-. exists ((top bs, z, n) :: bs).
      split; [exact E6|]. split; [exact E1|]. rewrite Ha in E5. injection E5 as ->.
      split; [reflexivity|]. split; [trivial | intros a' n' E; discriminate E].
  - subst live. destruct (os_new_inv s bs n Hi Hsp Hn (Hle eq_refl)) as (s2 & E1 & E2 & E3 & [[E4 E5] | (z & E4 & E5 & E6)]).
    2:{ rewrite Hok in E4. discriminate E4. }
    exists bs. rewrite Hok in E4. injection E4 as -> <-. destruct E5 as [E5 EW]. split; [exact E5|]. split; [exact E1|]. split; [reflexivity|].
    split; [|intros a' n' E; discriminate E].
    intros a (o & H1 & H2 & H3 & H4 & H5). exists o. rewrite E1. repeat (apply conj; [assumption|]).
    unfold wd. rewrite EW; [exact H5|]. destruct Hi as (Hc & Hch & _). pose proof (chain_top _ _ _ Hch).
    apply heap_cfg_facts in Hc. lia.
  - rewrite (Hl eq_refl) in *. cbn [app] in *. destruct bs as [|[[p z] n0] bs]; [discriminate El|].
    cbn [live_of map] in El. fold (live_of (c_hpb (cf s)) bs) in El. injection El as Ea En ->. cbn [fst snd] in *. subst a n0.
    destruct (os_dispose_inv s p z n bs Hi Ha) as (s2 & E1 & E2 & E3 & E4 & E5).
    rewrite Hok in E1. injection E1 as <-. exists bs. split; [exact E3|]. split; [exact E2|]. split; [reflexivity|].
    exact (dispose_cleared _ _ _ _ _ _ Hi E2 E3 E5).
  - subst live. destruct (alloc_tmp_inv s bs n Hi) as (s2 & (K1 & _) & [(E4 & _) | (_ & z & E4 & E6)]).
    { rewrite Hok in E4. injection E4 as _ -> _. congruence. }
    rewrite Hok in E4. injection E4 as <- -> _. exists ((top bs, z, n) :: bs).
    split; [exact E6|]. split; [exact K1|]. split; [reflexivity|]. split; [trivial | intros a' n' E; discriminate E].
  - subst live. destruct (alloc_tmp_inv s bs n Hi) as (s2 & (K1 & _) & [(E4 & _) | (_ & z & E4 & E6)]).
    + rewrite Hok in E4. injection E4 as -> _. exists bs. split; [exact Hi|]. split; [reflexivity|]. split; [reflexivity|].
      split; [intros a Ha; exact Ha | intros a' n' E; discriminate E].
    + rewrite Hok in E4. injection E4 as _ E4 _. exfalso. destruct Hi as (Hc & Hch & _). pose proof (chain_top _ _ _ Hch).
      apply heap_cfg_facts in Hc. lia.
  - rewrite (Hl eq_refl) in *. cbn [app] in *. destruct bs as [|[[p z] n0] bs]; [discriminate El|].
    cbn [live_of map] in El. fold (live_of (c_hpb (cf s)) bs) in El. injection El as Ea En ->. cbn [fst snd] in *. subst a n0.
    rewrite free_tmp_flag in Hok by exact Hal.
    destruct (free_inv s p z n bs Hi) as (s2 & E1 & E3 & (E2 & _) & E5).
    rewrite Hok in E1. injection E1 as <-. exists bs. split; [exact E3|]. split; [exact E2|]. split; [reflexivity|].
    exact (dispose_cleared _ _ _ _ _ _ Hi E2 E3 E5).
Qed.

Lemma hist_inv si s0 es s live : heap_cfg (cf si) -> init_heap si = HV s0 -> hist true s0 es s live ->
  exists bs, inv s bs /\ cf s = cf si /\ live = live_of (c_hpb (cf si)) bs /\ forall a, In a (disposed es) -> cleared s bs a.
Proof.
  intros Hc Hi H. destruct (init_inv _ _ Hc Hi) as [I0 C0].
  induction H as [|es s live e s' live' H IH Hs].
  - exists []. split; [exact I0|]. split; [exact C0|]. split; [reflexivity | intros a []].
  - destruct IH as (bs & I1 & E1 & E2 & E3). rewrite E2, <- E1 in Hs.
    destruct (hstep_inv _ _ _ _ _ I1 Hs) as (bs' & I2 & E4 & E5 & E6 & E7).
    exists bs'. split; [exact I2|]. split; [congruence|]. split; [rewrite <- E1; exact E5|].
    intros a Ha. cbn [disposed] in Ha. destruct e as [|a' n'|n'|a' n'].
    + exact (E6 a (E3 a Ha)).
    + destruct Ha.
    + exact (E6 a (E3 a Ha)).
    + destruct Ha as [-> | Ha]; [exact (E7 a n' eq_refl) | exact (E6 a (E3 a Ha))].
Qed.

(** ** C22 *)

Lemma lifo_blocks si s0 es s live : heap_cfg (cf si) -> init_heap si = HV s0 -> hist true s0 es s live ->
  blocks_ok (cf si) live.
Proof.
  intros Hc Hi H. destruct (hist_inv _ _ _ _ _ Hc Hi H) as (bs & I1 & E1 & -> & _).
  rewrite <- E1. apply inv_blocks. exact I1.
Qed.

Lemma lifo_new si s0 es s live n : heap_cfg (cf si) -> init_heap si = HV s0 -> hist true s0 es s live ->
  0 <= sp s < c_hpb (cf s) -> tos s 0 = Some n -> n <= 65520 ->
  exists s', (os_new s = Ok s' \/ os_new s = Err eNEWFAILED s') /\
             forall b, in_live live b -> byte_of (mem s') b = byte_of (mem s) b.
Proof.
  intros Hc Hi H Hsp Hn Hle. destruct (hist_inv _ _ _ _ _ Hc Hi H) as (bs & I1 & E1 & -> & _).
  destruct (os_new_inv s bs n I1 Hsp Hn Hle) as (s' & F1 & F2 & F3 & F4). rewrite <- E1.
  exists s'. split; [|exact F3]. destruct F4 as [[F4 _] | (z & F4 & _)]; [right | left]; exact F4.
Qed.

Lemma lifo_dispose si s0 es s a n live : heap_cfg (cf si) -> init_heap si = HV s0 -> hist true s0 es s ((a, n) :: live) ->
  tos s 0 = Some a ->
  exists s', os_dispose s = Ok s' /\ forall b, in_live live b -> byte_of (mem s') b = byte_of (mem s) b.
Proof.
  intros Hc Hi H Ha. destruct (hist_inv _ _ _ _ _ Hc Hi H) as (bs & I1 & E1 & E2 & _).
  destruct bs as [|[[p z] n0] bs]; [discriminate E2|]. cbn [live_of map fst snd] in E2.
  fold (live_of (c_hpb (cf si)) bs) in E2. injection E2 as -> -> ->.
  rewrite <- E1 in Ha. destruct (os_dispose_inv s p z n0 bs I1 Ha) as (s' & F1 & F2 & F3 & F4 & _).
  exists s'. split; [exact F1|]. rewrite <- E1. exact F4.
Qed.

(** ** C23, C24 *)

Lemma inv_satisfiable s bs n : inv s bs -> 0 < n <= 65520 ->
  (satisfiable s n <-> alignup n + 8 <= tsize (cf s) - top bs).
Proof.
  intros Hi Hn. pose proof (alloc_inv s bs n Hi Hn) as H. cbv zeta in H.
  destruct (chunk_size_ok n Hn) as [Hcs _]. rewrite Hcs in H.
  destruct (alignup n + 8 <=? tsize (cf s) - top bs) eqn:E.
  - destruct H as (s' & z & EA & _). split; [lia|]. intros _. exists s', (c_hpb (cf s) + top bs + 8).
    split; [exact EA|]. destruct Hi as (Hc & Hch & _). apply heap_cfg_facts in Hc. apply chain_top in Hch. lia.
  - split; [|lia]. intros (s' & a & EA & Ha). rewrite H in EA. injection EA as <- <-. lia.
Qed.

Lemma lifo_available si s0 es s n : heap_cfg (cf si) -> init_heap si = HV s0 -> hist true s0 es s [] ->
  0 < n <= 65520 -> (satisfiable s n <-> satisfiable s0 n).
Proof.
  intros Hc Hi H Hn. destruct (hist_inv _ _ _ _ _ Hc Hi H) as (bs & I1 & E1 & E2 & _).
  destruct bs; [|discriminate E2]. destruct (init_inv _ _ Hc Hi) as [I0 C0].
  rewrite (inv_satisfiable s [] n I1 Hn), (inv_satisfiable s0 [] n I0 Hn), E1, C0. reflexivity.
Qed.

Lemma init_spans si s n : heap_cfg (cf si) -> init_heap si = HV s -> 0 < n <= 65520 ->
  (satisfiable s n <-> alignup n + 8 + 16 <= aligndown (c_hpsz (cf si))).
Proof.
  intros Hc Hi Hn. destruct (init_inv _ _ Hc Hi) as [I0 C0].
  rewrite (inv_satisfiable s [] n I0 Hn), C0. cbn [top]. unfold tsize, aligndown.
  destruct Hc as (_ & H16 & _). lia.
Qed.

(** Base of the heap at most 8 bytes below of a multiple of 16 *)
Lemma init_within s : cfg_ok (cf s) -> 32 < c_hpsz (cf s) ->
  alignup (c_hpb (cf s)) <= c_hpb (cf s) + 8 -> alignup (c_hpb (cf s)) + c_hpsz (cf s) < 65536 ->
  exists s', init_heap s = HV s' /\ cf s' = cf s /\
             forall b, ~ in_heap (cf s) b -> byte_of (mem s') b = byte_of (mem s) b.
Proof.
  intros (H1 & H2 & H3) H4 H5 H6.
  assert (H5' := H5). unfold alignup in H5'. assert (H6' := H6). unfold alignup in H6'.
  assert (Hs : heap_start s = alignup (c_hpb (cf s))) by (apply u16_small; unfold alignup; lia).
  assert (Hst : exists S, heap_start s = 16 * S /\ c_hpb (cf s) <= 16 * S <= c_hpb (cf s) + 8 /\ 16 * S + c_hpsz (cf s) < 65536).
  { exists ((c_hpb (cf s) + 15) / 16). rewrite Hs. unfold alignup. lia. }
  destruct Hst as (S & HS1 & HS2). clear Hs H5 H5' H6 H6'.
  unfold init_heap. unfold heap_end. rewrite HS1.
  assert (He : exists E, aligndown (16 * S + c_hpsz (cf s)) = 16 * E /\ 16 * E <= 16 * S + c_hpsz (cf s) < 16 * E + 16).
  { exists ((16 * S + c_hpsz (cf s)) / 16). unfold aligndown. lia. }
  destruct He as (E & HE1 & HE2). rewrite HE1.
  unfold UNIT. replace (2 * 16 <? c_hpsz (cf s)) with true by lia.
  rewrite (u16_small (16 * E)) by lia.
  set (T := u16 (16 * E - 16 * S - 16)).
  repeat (rewrite hput_v by (unfold inw; cbn [cf with_mem]; lia); cbn [hbind mem with_mem]).
  eexists. split; [reflexivity|]. split; [reflexivity|].
  intros b Hb. cbn [mem with_mem with_fch]. unfold in_heap in Hb.
  rewrite !byte_of_upd_other by lia. reflexivity.
Qed.

(** ** C25 *)

Lemma free_outside s a : cfg_ok (cf s) -> 0 <= a < 65536 -> ~ in_heap (cf s) a -> free s a = HV (s, eHUH).
Proof.
  intros (H1 & H2 & H3) Ha Hn. unfold free, in_heap, CHUNK, UNIT in *.
  assert (Hs : heap_start s = 0 /\ 65521 <= c_hpb (cf s) \/ c_hpb (cf s) <= heap_start s <= c_hpb (cf s) + 15).
  { unfold heap_start, alignup, u16. lia. }
  replace ((a <? heap_start s + 8) || (heap_start s + c_hpsz (cf s) - 16 <=? a)) with true by lia. reflexivity.
Qed.

Lemma dispose_outside s a : cfg_ok (cf s) -> tos s 0 = Some a -> ~ in_heap (cf s) a ->
  os_dispose s = Err eHUH (with_sp s (u16 (sp s - 2))).
Proof.
  intros Hc Ha Hn. unfold os_dispose. rewrite (pop_eq _ _ Ha). cbn [bindo]. unfold heap_dispose.
  rewrite (free_outside (with_sp s (u16 (sp s - 2)))) by (assumption || exact (tos_range _ _ _ Ha)). reflexivity.
Qed.

Lemma dispose_not_in_use s a : heap_cfg (cf s) -> tos s 0 = Some a -> a mod 2 = 0 ->
  c_hpb (cf s) + 8 <= a < c_hpb (cf s) + c_hpsz (cf s) - 16 -> wd s ((a - 8) / 2) < 32768 ->
  os_dispose s = Err eDOUBLEFREE (with_sp s (u16 (sp s - 2))).
Proof.
  intros Hc Ha Hev Hin Hw. pose proof (heap_cfg_facts _ Hc) as Hcf.
  unfold os_dispose. rewrite (pop_eq _ _ Ha). cbn [bindo]. unfold heap_dispose, free.
  rewrite heap_start_ok by exact Hc. cbn [cf with_sp]. unfold CHUNK, UNIT.
  replace ((a <? c_hpb (cf s) + 8) || (c_hpb (cf s) + c_hpsz (cf s) - 16 <=? a)) with false by lia.
  pose proof (tos_range _ _ _ Ha). rewrite (u16_small (a - 8)) by lia.
  assert (Hsz : c_hpb (cf s) + c_hpsz (cf s) <= c_ssz (cf s)) by (destruct Hc as ((_ & _ & Hc) & _); lia).
  rewrite in_use_v by (unfold inw; cbn [cf with_sp]; lia). cbn [hbind].
  change (wd (with_sp s (u16 (sp s - 2)))) with (wd s). replace (32768 <=? wd s ((a - 8) / 2)) with false by lia. reflexivity.
Qed.

Lemma dispose_twice si s0 es s live a : heap_cfg (cf si) -> init_heap si = HV s0 -> hist true s0 es s live ->
  In a (disposed es) -> tos s 0 = Some a -> os_dispose s = Err eDOUBLEFREE (with_sp s (u16 (sp s - 2))).
Proof.
  intros Hc Hi H Hin Ha. destruct (hist_inv _ _ _ _ _ Hc Hi H) as (bs & I1 & E1 & _ & D).
  destruct (D a Hin) as (o & -> & H2 & H3 & H4 & H5). destruct I1 as (Hc1 & Hch & _).
  pose proof (heap_cfg_facts _ Hc1) as Hcf. pose proof (chain_top _ _ _ Hch) as Htop.
  apply (dispose_not_in_use s (c_hpb (cf s) + o + 8)); [exact Hc1|exact Ha|lia|lia|].
  replace (c_hpb (cf s) + o + 8 - 8) with (c_hpb (cf s) + o) by lia. exact H5.
Qed.
