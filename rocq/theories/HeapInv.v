(** The invariant of runs that dispose of blocks in reverse order *)

From Coq Require Import ZArith Bool List Lia ZifyBool.
From Verif Require Import Words State WordLemmas StateLemmas HeapModel HeapSpec HeapProofs.
Import ListNotations.
Open Scope Z_scope.
Local Ltac Zify.zify_post_hook ::= Z.div_mod_to_equations.

(** Offset of the terminus *)
Definition tsize (c : cfg) : Z := aligndown (c_hpb c + c_hpsz c) - c_hpb c - 16.

(** Chunks in use: offset, length, size requested; the last one first *)
Definition top (bs : list (Z * Z * Z)) : Z := match bs with [] => 0 | (p, z, _) :: _ => p + z end.
Definition lastz (bs : list (Z * Z * Z)) : Z := match bs with [] => 0 | (_, z, _) :: _ => z end.

Fixpoint chain (m : Z -> Z) (hs : Z) (bs : list (Z * Z * Z)) : Prop :=
  match bs with
  | [] => True
  | (p, z, n) :: r =>
    0 < n /\ n + 8 <= z /\ 24 <= z /\ z mod 8 = 0 /\ p = top r /\
    m ((hs + p) / 2) = z + 32768 /\ m ((hs + p) / 2 + 1) = lastz r /\ m ((hs + p) / 2 + 2) = p /\ chain m hs r
  end.

Definition live_of (hs : Z) (bs : list (Z * Z * Z)) : list (Z * Z) :=
  map (fun b => (hs + fst (fst b) + 8, snd b)) bs.

Definition free_part (s : st) (hs T : Z) (bs : list (Z * Z * Z)) : Prop :=
  let o := top bs in let i := (hs + o) / 2 in
  (o = T /\ fch s = NULL) \/
  (o + 16 <= T /\ fch s = hs + o /\ wd s i = T - o /\ wd s (i + 1) = lastz bs /\ wd s (i + 2) = o /\
   wd s (i + 4) = 0 /\ wd s (i + 5) = 0).

Definition inv (s : st) (bs : list (Z * Z * Z)) : Prop :=
  let hs := c_hpb (cf s) in let T := tsize (cf s) in
  heap_cfg (cf s) /\ chain (wd s) hs bs /\ wd s ((hs + T) / 2) = 32768 /\ free_part s hs T bs.

Lemma heap_cfg_facts c : heap_cfg c ->
  0 <= c_hpb c /\ c_hpb c mod 16 = 0 /\ tsize c mod 16 = 0 /\ 16 <= tsize c <= 32752 /\
  tsize c + 16 <= c_hpsz c /\ 32 < c_hpsz c /\ c_hpb c + tsize c + 16 <= c_ssz c <= 65535.
Proof. unfold heap_cfg, cfg_ok, tsize, aligndown. intros [[H1 [H2 H3]] [H4 H5]]. lia. Qed.

Lemma heap_start_ok s : heap_cfg (cf s) -> heap_start s = c_hpb (cf s).
Proof.
  intros H. apply heap_cfg_facts in H. unfold heap_start, alignup.
  replace ((c_hpb (cf s) + 15) / 16 * 16) with (c_hpb (cf s)) by lia. apply u16_small. lia.
Qed.

Lemma chain_top m hs bs : chain m hs bs -> 0 <= top bs /\ top bs mod 8 = 0 /\ 0 <= lastz bs <= top bs.
Proof.
  revert hs. induction bs as [|[[p z] n] r IH]; intros hs H; cbn [top lastz].
  - lia.
  - cbn [chain] in H. destruct H as (H1 & H2 & H3 & H4 & H5 & _ & _ & _ & H6). apply IH in H6. lia.
Qed.

Lemma chain_in m hs bs p z n : chain m hs bs -> In (p, z, n) bs ->
  0 <= p /\ p + z <= top bs /\ n + 8 <= z /\ 24 <= z /\ 0 < n /\ p mod 8 = 0.
Proof.
  induction bs as [|[[p' z'] n'] r IH]; intros H Hin; [destruct Hin|].
  cbn [chain] in H. destruct H as (H1 & H2 & H3 & H4 & H5 & _ & _ & _ & H6).
  pose proof (chain_top _ _ _ H6). cbn [top]. destruct Hin as [E | Hin].
  - injection E as -> -> ->. lia.
  - specialize (IH H6 Hin). lia.
Qed.

Lemma chain_apart m hs bs p z n p' z' n' : chain m hs bs -> In (p, z, n) bs -> In (p', z', n') bs ->
  p = p' \/ p + z <= p' \/ p' + z' <= p.
Proof.
  induction bs as [|[[p1 z1] n1] r IH]; intros H Hin Hin'; [destruct Hin|].
  cbn [chain] in H. destruct H as (H1 & H2 & H3 & H4 & H5 & _ & _ & _ & H6).
  destruct Hin as [E | Hin], Hin' as [E' | Hin'].
  - injection E as -> -> ->. injection E' as -> -> ->. lia.
  - injection E as -> -> ->. pose proof (chain_in _ _ _ _ _ _ H6 Hin'). lia.
  - injection E' as -> -> ->. pose proof (chain_in _ _ _ _ _ _ H6 Hin). lia.
  - exact (IH H6 Hin Hin').
Qed.

Lemma chain_ext m m' hs bs :
  (forall p z n k, In (p, z, n) bs -> 0 <= k <= 2 -> m' ((hs + p) / 2 + k) = m ((hs + p) / 2 + k)) ->
  chain m hs bs -> chain m' hs bs.
Proof.
  induction bs as [|[[p z] n] r IH]; intros E H; [exact I|].
  cbn [chain] in *. destruct H as (H1 & H2 & H3 & H4 & H5 & H6 & H7 & H8 & H9).
  repeat (apply conj; [assumption|]).
  assert (E' : forall k, 0 <= k <= 2 -> m' ((hs + p) / 2 + k) = m ((hs + p) / 2 + k))
    by (intros k Hk; exact (E p z n k (or_introl eq_refl) Hk)).
  assert (E0 := E' 0 ltac:(lia)). rewrite Z.add_0_r in E0.
  rewrite E0, (E' 1), (E' 2) by lia.
  repeat (apply conj; [assumption|]).
  apply IH; [|exact H9]. intros p1 z1 n1 k Hin Hk. exact (E p1 z1 n1 k (or_intror Hin) Hk).
Qed.

Lemma chain_below m m' hs bs : 0 <= hs -> hs mod 2 = 0 ->
  (forall i, i < (hs + top bs) / 2 -> m' i = m i) -> chain m hs bs -> chain m' hs bs.
Proof.
  intros Hh Hm E H. apply (chain_ext m); [|exact H]. intros p z n k Hin Hk. apply E.
  pose proof (chain_in _ _ _ _ _ _ H Hin). lia.
Qed.

Lemma in_live_of hs bs b : in_live (live_of hs bs) b <->
  exists p z n, In (p, z, n) bs /\ hs + p + 8 <= b < hs + p + 8 + n.
Proof.
  unfold in_live, live_of, in_block. split.
  - intros [[x y] [Hin Hb]]. apply in_map_iff in Hin. destruct Hin as [[[p z] n] [E Hin]].
    injection E as <- <-. exists p, z, n. split; [exact Hin | exact Hb].
  - intros (p & z & n & Hin & Hb). exists (hs + p + 8, n). split; [|exact Hb].
    apply in_map_iff. exists (p, z, n). split; [reflexivity | exact Hin].
Qed.

Lemma chain_disjoint m hs bs : chain m hs bs -> disjoint_blocks (live_of hs bs).
Proof.
  induction bs as [|[[p z] n] r IH]; intros H; [exact I|].
  assert (H' := H). cbn [chain] in H. destruct H as (H1 & H2 & H3 & H4 & H5 & _ & _ & _ & H6).
  split; [|exact (IH H6)]. fold (live_of hs r).
  intros b Hb Hl. apply in_live_of in Hl. destruct Hl as (p1 & z1 & n1 & Hin & Hb1).
  pose proof (chain_in _ _ _ _ _ _ H6 Hin). unfold in_block in Hb. cbn [fst snd] in Hb. lia.
Qed.

Lemma top_le s hs T bs : free_part s hs T bs -> top bs <= T.
Proof. unfold free_part. lia. Qed.

Lemma inv_blocks s bs : inv s bs -> blocks_ok (cf s) (live_of (c_hpb (cf s)) bs).
Proof.
  intros (Hc & Hch & _ & Hf). apply heap_cfg_facts in Hc. apply top_le in Hf.
  split; [exact (chain_disjoint _ _ _ Hch)|].
  intros b Hb. apply in_live_of in Hb. destruct Hb as (p & z & n & Hin & Hb).
  pose proof (chain_in _ _ _ _ _ _ Hch Hin). unfold in_heap. lia.
Qed.

(** ** Initialisation *)

Lemma init_inv s0 s : heap_cfg (cf s0) -> init_heap s0 = HV s -> inv s [] /\ cf s = cf s0.
Proof.
  intros Hc H. pose proof (heap_cfg_facts _ Hc) as Hf.
  assert (Hs : heap_start s0 = c_hpb (cf s0)) by (apply heap_start_ok; exact Hc).
  assert (He : heap_end s0 = c_hpb (cf s0) + tsize (cf s0) + 16).
  { unfold heap_end. rewrite Hs. rewrite u16_small; unfold tsize, aligndown in *; lia. }
  unfold init_heap in H. rewrite Hs, He in H.
  set (hs := c_hpb (cf s0)) in *. set (T := tsize (cf s0)) in *. unfold UNIT in H.
  replace (2 * 16 <? c_hpsz (cf s0)) with true in H by lia.
  replace (hs + T + 16 - 16) with (hs + T) in H by lia.
  replace (hs + T + 16 - hs - 16) with T in H by lia.
  rewrite (u16_small T) in H by lia. replace (T mod 32768) with T in H by lia.
  repeat (rewrite hput_v in H by (unfold inw; cbn [cf with_mem]; lia); cbn [hbind mem with_mem] in H).
  rewrite (u16_small T), (u16_small 0) in H by lia. change (u16 32768) with 32768 in H.
  injection H as <-.
  split; [|reflexivity]. unfold inv. cbn [cf with_mem with_fch].
  fold hs T. split; [exact Hc|]. split; [exact I|]. split.
  - unfold wd. cbn [mem with_mem with_fch]. unfold upd.
    repeat match goal with |- context [?a =? ?b] => destruct (Z.eqb_spec a b); [lia|] end.
    destruct (Z.eqb_spec ((hs + T) / 2) ((hs + T) / 2 + 0)); [reflexivity | lia].
  - right. cbn [top lastz]. rewrite !Z.add_0_r, Z.sub_0_r. unfold wd. cbn [mem with_mem with_fch fch].
    split; [lia|]. split; [reflexivity|].
    unfold upd.
    repeat split;
    repeat match goal with
    | |- context [?a =? ?b] => destruct (Z.eqb_spec a b); [try lia; try (apply u16_small; lia); try reflexivity|try lia]
    end.
Qed.

Lemma init_def s0 : heap_cfg (cf s0) -> exists s, init_heap s0 = HV s.
Proof.
  intros Hc. pose proof (heap_cfg_facts _ Hc) as Hf.
  assert (Hs : heap_start s0 = c_hpb (cf s0)) by (apply heap_start_ok; exact Hc).
  assert (He : heap_end s0 = c_hpb (cf s0) + tsize (cf s0) + 16).
  { unfold heap_end. rewrite Hs. rewrite u16_small; unfold tsize, aligndown in *; lia. }
  unfold init_heap. rewrite Hs, He.
  set (hs := c_hpb (cf s0)) in *. set (T := tsize (cf s0)) in *. unfold UNIT.
  replace (2 * 16 <? c_hpsz (cf s0)) with true by lia.
  repeat (rewrite hput_v by (unfold inw; cbn [cf with_mem]; lia); cbn [hbind mem with_mem]).
  eexists. reflexivity.
Qed.

(** ** The program *)

Lemma word_bytes m m' i : byte_of m' (2 * i) = byte_of m (2 * i) -> byte_of m' (2 * i + 1) = byte_of m (2 * i + 1) ->
  u16 (m' i) = u16 (m i).
Proof. intros H1 H2. rewrite (word_of_bytes m'), (word_of_bytes m). congruence. Qed.

Lemma user_inv s bs s' : inv s bs -> user_step s (live_of (c_hpb (cf s)) bs) s' -> inv s' bs.
Proof.
  intros (Hc & Hch & Ht & Hf) (E1 & E2 & E3).
  unfold inv. rewrite E1. pose proof (heap_cfg_facts _ Hc) as Hcf.
  set (hs := c_hpb (cf s)) in *. set (T := tsize (cf s)) in *.
  pose proof (chain_top _ _ _ Hch) as Htop. pose proof (top_le _ _ _ _ Hf) as HT.
  assert (W : forall i, hs <= 2 * i < hs + c_hpsz (cf s) - 1 ->
              (forall p z n, In (p, z, n) bs -> 2 * i + 1 < hs + p + 8 \/ hs + p + 8 + n <= 2 * i) -> wd s' i = wd s i).
  { intros i Hi Hn. apply word_bytes; apply E3; unfold in_heap; try lia;
      intros Hl; apply in_live_of in Hl; destruct Hl as (p & z & n & Hin & Hb); specialize (Hn p z n Hin); lia. }
  split; [exact Hc|]. split; [|split].
  - apply (chain_ext (wd s)); [|exact Hch]. intros p z n k Hin Hk.
    pose proof (chain_in _ _ _ _ _ _ Hch Hin) as Hp. apply W; [lia|].
    intros p' z' n' Hin'. pose proof (chain_in _ _ _ _ _ _ Hch Hin') as Hp'.
    pose proof (chain_apart _ _ _ _ _ _ _ _ _ Hch Hin Hin'). lia.
  - rewrite W; [exact Ht|lia|]. intros p z n Hin. pose proof (chain_in _ _ _ _ _ _ Hch Hin) as Hp. lia.
  - unfold free_part in *. rewrite E2. destruct Hf as [Hf | Hf]; [left; exact Hf | right].
    assert (W' : forall k, 0 <= k <= 5 -> wd s' ((hs + top bs) / 2 + k) = wd s ((hs + top bs) / 2 + k)).
    { intros k Hk. apply W; [lia|]. intros p z n Hin. pose proof (chain_in _ _ _ _ _ _ Hch Hin) as Hp. lia. }
    assert (W0 := W' 0 ltac:(lia)). rewrite Z.add_0_r in W0. rewrite W0, !W' by lia. exact Hf.
Qed.

(** ** Allocation *)

(** What remains the same *)
Definition kept (s s' : st) (bs : list (Z * Z * Z)) : Prop :=
  cf s' = cf s /\ sp s' = sp s /\
  forall i, i < (c_hpb (cf s) + top bs) / 2 \/ (c_hpb (cf s) + tsize (cf s)) / 2 + 1 < i -> mem s' i = mem s i.

Lemma chunk_size_ok n : 0 < n <= 65520 -> chunk_size n = alignup n + 8 /\ n <= alignup n <= n + 15 /\ alignup n mod 16 = 0.
Proof. intros H. unfold chunk_size, alignup, CHUNK. split; [apply u16_small; lia | lia]. Qed.

Lemma alloc_inv s bs n : inv s bs -> 0 < n <= 65520 ->
  let room := tsize (cf s) - top bs in
  if chunk_size n <=? room then
    exists s' z, alloc s n = HV (s', c_hpb (cf s) + top bs + 8) /\ inv s' ((top bs, z, n) :: bs) /\ kept s s' bs
  else alloc s n = HV (s, 0).
Proof.
  intros (Hc & Hch & Ht & Hf) Hn. pose proof (heap_cfg_facts _ Hc) as Hcf.
  pose proof (heap_start_ok _ Hc) as Hs.
  pose proof (chain_top _ _ _ Hch) as Htop. pose proof (top_le _ _ _ _ Hf) as HT.
  unfold inv, kept, alloc. rewrite heap_bound_S. cbn [alloc_loop].
  remember (c_hpb (cf s)) as hs eqn:Ehs. remember (tsize (cf s)) as T eqn:ET. remember (top bs) as o eqn:Eo.
  destruct (chunk_size_ok n Hn) as [Hcs Hal]. remember (chunk_size n) as z eqn:Ez. cbv zeta.
  destruct Hf as [[Hf1 Hf2] | (Hf1 & Hf2 & W0 & W1 & W2 & W4 & W5)].
  - rewrite Hf2. replace (NULL =? NULL) with true by reflexivity. replace (z <=? T - o) with false by lia. reflexivity.
  - rewrite <- Eo in *. set (i := (hs + o) / 2) in *. set (c := hs + o) in *. rewrite Hf2.
    assert (Hc0 : (c =? NULL) = false) by (unfold NULL; lia). rewrite Hc0.
    assert (IC : forall k, 0 <= k <= 5 -> inw s c k) by (intros k Hk; unfold inw; lia).
    rewrite forward_v by (apply IC; lia). cbn [hbind]. rewrite next_v by (apply IC; lia). cbn [hbind].
    change (c / 2) with i. rewrite W0, W5. rewrite (Z.mod_small (T - o)) by lia.
    destruct (z <=? T - o) eqn:Er.
    2:{ unfold link. cbn [Z.eqb]. replace (NULL =? NULL) with true by reflexivity. reflexivity. }
    rewrite remove_single; [|apply IC; lia..|exact W4|exact W5]. cbn [hbind].
    rewrite set_in_use_v by (apply (inw_cf s); [reflexivity | apply IC; lia]). cbn [hbind].
    change (c / 2) with i. change (wd (with_fch s NULL)) with (wd s). rewrite W0, (Z.mod_small (T - o)) by lia.
    cbn [mem with_fch].
    set (s1 := with_mem (with_fch s NULL) (upd (mem s) i (32768 + (T - o)))).
    assert (V1 : forall k, k <> i -> wd s1 k = wd s k) by (intros k Hk; apply wd_upd_other; exact Hk).
    assert (V1i : wd s1 i = 32768 + (T - o)) by (apply wd_upd_same; lia).
    assert (IC1 : forall k, 0 <= k <= 5 -> inw s1 c k) by (intros k Hk; apply (inw_cf s); [reflexivity | apply IC; lia]).
    rewrite (address_v s1) by (apply IC1; lia).
    cbn [hbind]. change (c / 2) with i. rewrite V1, W2 by lia.
    replace (heap_start s1) with hs by (rewrite (heap_start_cf s s1) by reflexivity; congruence).
    unfold FREECHUNK. destruct (z + 16 <? T - o) eqn:Es.
    + (* split *)
      set (sub := hs + o + z). set (j := sub / 2).
      assert (IS : forall s' k, cf s' = cf s -> 0 <= k <= 5 -> inw s' sub k)
        by (intros s' k E Hk; apply (inw_cf s); [exact E|]; unfold inw; lia).
      rewrite forward_v by (apply IC1; lia). cbn [hbind]. change (c / 2) with i. rewrite V1i.
      replace ((32768 + (T - o)) mod 32768) with (T - o) by lia.
      rewrite hput_v by (apply IS; [reflexivity | lia]). cbn [hbind].
      rewrite hput_v by (apply IS; [reflexivity | lia]). cbn [hbind].
      change (sub / 2) with j. rewrite Z.add_0_r.
      rewrite (Z.mod_small (T - o - z)), (Z.mod_small z 32768), (u16_small (T - o - z)), (u16_small z) by lia.
      cbn [mem with_mem].
      set (m2 := upd (upd (mem s1) j (T - o - z)) (j + 1) z).
      change (with_mem (with_mem s1 (upd (mem s1) j (T - o - z))) m2) with (with_mem s1 m2).
      assert (M2 : forall k, k < j -> m2 k = mem s1 k) by (intros k Hk; subst m2; rewrite !upd_other by lia; reflexivity).
      rewrite address_v by (apply (inw_cf s); [reflexivity | apply IC; lia]). cbn [hbind].
      change (c / 2) with i.
      assert (Wc2 : wd (with_mem s1 m2) (i + 2) = o).
      { unfold wd. cbn [mem with_mem]. rewrite M2 by lia. change (u16 (mem s1 (i + 2))) with (wd s1 (i + 2)). rewrite V1 by lia. exact W2. }
      rewrite Wc2.
      rewrite hput_v by (apply IS; [reflexivity | lia]). cbn [hbind].
      rewrite hput_v by (apply IS; [reflexivity | lia]). cbn [hbind].
      change (sub / 2) with j. rewrite (u16_small (o + z)), (u16_small 0) by lia.
      rewrite set_forward_v by (apply (inw_cf s); [reflexivity | apply IC; lia]). cbn [hbind].
      change (c / 2) with i. cbn [mem with_mem].
      match goal with |- context [upd ?m i (wd ?s i / 32768 * 32768 + z mod 32768)] =>
        replace (wd s i / 32768 * 32768 + z mod 32768) with (32768 + z) end.
      2:{ unfold wd. cbn [mem with_mem]. rewrite !upd_other by lia. rewrite M2 by lia.
          change (u16 (mem s1 i)) with (wd s1 i). rewrite V1i. lia. }
      set (m3 := upd (upd (upd m2 (j + 2) (o + z)) (j + 3) 0) i (32768 + z)).
      match goal with |- context [dispose_chunk ?x sub] => set (s2 := x) end.
      assert (M3 : mem s2 = m3) by reflexivity.
      assert (C2 : cf s2 = cf s) by reflexivity.
      assert (Hs2 : heap_start s2 = hs) by (rewrite (heap_start_cf s s2) by reflexivity; congruence).
      assert (N0 : forall k, k <> i -> k < j \/ j + 3 < k -> m3 k = mem s k).
      { intros k K1 K2. subst m3 m2. rewrite !upd_other by lia. subst s1. cbn [mem with_mem]. rewrite upd_other by lia. reflexivity. }
      assert (Q0 : wd s2 j = T - o - z).
      { unfold wd. rewrite M3. subst m3 m2. rewrite !upd_other by lia. rewrite upd_same. apply u16_small. lia. }
      assert (Q1 : wd s2 (j + 1) = z).
      { unfold wd. rewrite M3. subst m3 m2. rewrite !upd_other by lia. rewrite upd_same. apply u16_small. lia. }
      assert (Q2 : wd s2 (j + 2) = o + z).
      { unfold wd. rewrite M3. subst m3 m2. rewrite (upd_other _ i), (upd_other _ (j + 3)) by lia. rewrite upd_same. apply u16_small. lia. }
      assert (Qi : wd s2 i = 32768 + z).
      { unfold wd. rewrite M3. subst m3. rewrite upd_same. apply u16_small. lia. }
      assert (Enx : u16 (heap_start s2 + (o + z) + (T - o - z)) = hs + T) by (rewrite Hs2; replace (hs + (o + z) + (T - o - z)) with (hs + T) by lia; apply u16_small; lia).
      assert (Epv : u16 (heap_start s2 + (o + z) - z) = c) by (rewrite Hs2; replace (hs + (o + z) - z) with c by lia; apply u16_small; lia).
      assert (Ht2 : wd s2 ((hs + T) / 2) = 32768).
      { unfold wd. rewrite M3, N0 by lia. exact Ht. }
      rewrite (dispose_in_use s2 sub (T - o - z) (o + z) z).
      * cbn [hbind]. rewrite address_v by (apply (inw_cf s); [reflexivity | apply IC; lia]). cbn [hbind].
        change (c / 2) with i. change (sub / 2) with j.
        match goal with |- context [HV (?x, u16 _)] => set (s3 := x) end.
        assert (M4 : forall k, k <> j -> k <> j + 4 -> k <> j + 5 -> mem s3 k = m3 k).
        { intros k K1 K2 K3. subst s3. cbn [mem with_mem with_fch]. rewrite !upd_other by assumption. rewrite M3. reflexivity. }
        assert (C3 : cf s3 = cf s) by reflexivity.
        assert (Hs3 : heap_start s3 = hs) by (rewrite (heap_start_cf s s3) by reflexivity; congruence).
        assert (R2 : wd s3 (i + 2) = o).
        { unfold wd. rewrite M4, N0 by lia. exact W2. }
        rewrite R2, Hs3. unfold CHUNK. rewrite u16_small by lia.
        exists s3, z. split; [reflexivity|]. rewrite C3, <- Ehs, <- ET.
        split.
        -- split; [exact Hc|]. split; [|split].
           ++ cbn [chain]. rewrite <- Eo. change ((hs + o) / 2) with i.
              assert (R : forall k, k <> i -> k < j -> wd s3 k = wd s k).
              { intros k K1 K2. unfold wd. rewrite M4, N0 by lia. reflexivity. }
              do 5 (apply conj; [lia|]). split.
              { transitivity (wd s2 i); [|lia]. unfold wd. rewrite M4 by lia. rewrite M3. reflexivity. }
              split; [rewrite R by lia; exact W1|]. split; [exact R2|].
              apply (chain_below (wd s)); [lia|lia| |exact Hch]. rewrite <- Eo. intros k Hk. apply R; lia.
           ++ unfold wd. rewrite M4 by lia. rewrite <- M3. exact Ht2.
           ++ right. cbn [top lastz]. replace ((hs + (o + z)) / 2) with j by (unfold j, sub; lia).
              split; [lia|]. split; [cbn; unfold sub; lia|]. unfold wd. subst s3. cbn [mem with_mem with_fch].
              split; [rewrite !upd_other, upd_same by lia; rewrite u16_small by lia; lia|].
              split; [rewrite !upd_other by lia; exact Q1|].
              split; [rewrite !upd_other by lia; exact Q2|].
              split; [rewrite upd_other, upd_same by lia; reflexivity | rewrite upd_same; reflexivity].
        -- split; [reflexivity|]. split; [reflexivity|]. intros k Hk. rewrite M4, N0 by lia. reflexivity.
      * apply IS; [reflexivity|lia].
      * apply IS; [reflexivity|lia].
      * apply IS; [reflexivity|lia].
      * apply IS; [reflexivity|lia].
      * apply IS; [reflexivity|lia].
      * change (sub / 2) with j. rewrite Q0. lia.
      * lia.
      * exact Q1.
      * lia.
      * exact Q2.
      * intros _. rewrite Epv. change (c / 2) with i. change (sub / 2) with j.
        split; [apply (inw_cf s); [reflexivity | apply IC; lia]|]. rewrite Qi. lia.
      * rewrite Enx. split; [apply (inw_cf s); [reflexivity | unfold inw; lia]|]. change (sub / 2) with j. lia.
      * reflexivity.
      * rewrite Enx, Ht2. lia.
    + (* no split *)
      cbn [hbind]. rewrite (address_v s1) by (apply IC1; lia). cbn [hbind]. change (c / 2) with i.
      rewrite V1, W2 by lia. replace (heap_start s1) with hs by (rewrite (heap_start_cf s s1) by reflexivity; congruence).
      unfold CHUNK. rewrite u16_small by lia.
      exists s1, (T - o). split; [reflexivity|].
      assert (C1 : cf s1 = cf s) by reflexivity. rewrite C1, <- Ehs, <- ET.
      split.
      * split; [exact Hc|]. split; [|split].
        -- cbn [chain]. rewrite <- Eo. change ((hs + o) / 2) with i.
           do 5 (apply conj; [lia|]). split; [rewrite V1i; lia|].
           split; [rewrite V1 by lia; exact W1|]. split; [rewrite V1 by lia; exact W2|].
           apply (chain_below (wd s)); [lia|lia| |exact Hch]. rewrite <- Eo. intros k Hk. apply V1. lia.
        -- rewrite V1 by lia. exact Ht.
        -- left. cbn [top]. split; [lia | reflexivity].
      * split; [reflexivity|]. split; [reflexivity|]. intros k Hk. subst s1. cbn [mem with_mem with_fch].
        rewrite upd_other by lia. reflexivity.
Qed.

(** ** Disposal *)

Lemma free_inv s p z n bs : inv s ((p, z, n) :: bs) ->
  exists s', free s (c_hpb (cf s) + p + 8) = HV (s', eNOERROR) /\ inv s' bs /\ kept s s' bs /\
    forall k, k <> (c_hpb (cf s) + p) / 2 -> k <> (c_hpb (cf s) + p) / 2 + 4 -> k <> (c_hpb (cf s) + p) / 2 + 5 ->
              k <> (c_hpb (cf s) + tsize (cf s)) / 2 + 1 -> mem s' k = mem s k.
Proof.
  intros (Hc & Hch & Ht & Hf). pose proof (heap_cfg_facts _ Hc) as Hcf.
  pose proof (heap_start_ok _ Hc) as Hs.
  pose proof (chain_top _ _ _ Hch) as Htop. pose proof (top_le _ _ _ _ Hf) as HT.
  cbn [top lastz] in Htop, HT. cbn [chain] in Hch.
  destruct Hch as (K1 & K2 & K3 & K4 & K5 & W0 & W1 & W2 & Hch).
  pose proof (chain_top _ _ _ Hch) as Htop1.
  unfold inv, kept, free. rewrite Hs.
  remember (c_hpb (cf s)) as hs eqn:Ehs. remember (tsize (cf s)) as T eqn:ET.
  set (c := hs + p) in *. set (i := c / 2) in *. unfold CHUNK, UNIT.
  replace ((c + 8 <? hs + 8) || (hs + c_hpsz (cf s) - 16 <=? c + 8)) with false by lia.
  replace (c + 8 - 8) with c by lia. rewrite (u16_small c) by lia.
  assert (IC : forall k, 0 <= k <= 5 -> inw s c k) by (intros k Hk; unfold inw; lia).
  assert (IC' : forall s' k, cf s' = cf s -> 0 <= k <= 5 -> inw s' c k)
    by (intros s' k E Hk; apply (inw_cf s); [exact E | apply IC; lia]).
  rewrite in_use_v by (apply IC; lia). cbn [hbind]. change (c / 2) with i. rewrite W0.
  replace (32768 <=? z + 32768) with true by lia. cbn [negb].
  unfold set_next. rewrite hput_v by (apply IC; lia). cbn [hbind].
  unfold set_prev. rewrite hput_v by (apply IC'; [reflexivity | lia]). cbn [hbind].
  change (c / 2) with i. cbn [mem with_mem]. rewrite (u16_small 0) by lia.
  match goal with |- context [dispose_chunk ?x c] => set (s1 := x) end.
  assert (M1 : forall k, k <> i + 4 -> k <> i + 5 -> mem s1 k = mem s k).
  { intros k Q1 Q2. subst s1. cbn [mem with_mem]. rewrite !upd_other by assumption. reflexivity. }
  assert (V1 : forall k, k <> i + 4 -> k <> i + 5 -> wd s1 k = wd s k)
    by (intros k Q1 Q2; unfold wd; rewrite M1 by assumption; reflexivity).
  assert (Hs1 : heap_start s1 = hs) by (rewrite (heap_start_cf s s1) by reflexivity; exact Hs).
  assert (PV : lastz bs <> 0 ->
     inw s1 (u16 (heap_start s1 + p - lastz bs)) 0 /\
     32768 <= wd s1 (u16 (heap_start s1 + p - lastz bs) / 2) /\ u16 (heap_start s1 + p - lastz bs) / 2 <> i).
  { intros Hz. destruct bs as [|[[p1 z1] n1] r]; [cbn [lastz] in Hz; lia|].
    cbn [lastz top] in *. cbn [chain] in Hch. destruct Hch as (R1 & R2 & R3 & R4 & R5 & R6 & _ & _ & R7).
    pose proof (chain_top _ _ _ R7) as R8. rewrite Hs1.
    replace (hs + p - z1) with (hs + p1) by lia. rewrite u16_small by lia.
    split; [apply (inw_cf s); [reflexivity | unfold inw; lia]|].
    rewrite V1 by lia. rewrite R6. lia. }
  assert (Enx : u16 (heap_start s1 + p + z) = c + z) by (rewrite Hs1; apply u16_small; lia).
  destruct Hf as [[Hf1 Hf2] | (Hf1 & Hf2 & G0 & G1 & G2 & G4 & G5)]; cbn [top lastz] in *.
  - (* the chunk is the last one *)
    rewrite (dispose_in_use s1 c z p (lastz bs)).
    2-6: apply IC'; [reflexivity | lia].
    2:{ change (c / 2) with i. rewrite V1, W0 by lia. lia. }
    2: lia.
    2:{ change (c / 2) with i. rewrite V1 by lia. exact W1. }
    2: lia.
    2:{ change (c / 2) with i. rewrite V1 by lia. exact W2. }
    2: exact PV.
    2:{ rewrite Enx. split; [apply (inw_cf s); [reflexivity | unfold inw; lia]|]. change (c / 2) with i. lia. }
    2: exact Hf2.
    2:{ rewrite Enx. replace (c + z) with (hs + T) by lia. rewrite V1 by lia. lia. }
    cbn [hbind]. change (c / 2) with i.
    match goal with |- context [HV (?x, eNOERROR)] => set (s2 := x) end.
    exists s2. split; [reflexivity|].
    assert (M2 : forall k, k <> i -> k <> i + 4 -> k <> i + 5 -> mem s2 k = mem s k).
    { intros k Q1 Q2 Q3. subst s2. cbn [mem with_mem with_fch]. rewrite !upd_other by assumption. apply M1; assumption. }
    assert (C2 : cf s2 = cf s) by reflexivity. rewrite C2, <- Ehs, <- ET.
    split.
    + split; [exact Hc|]. split; [|split].
      * apply (chain_below (wd s)); [lia|lia| |exact Hch]. intros k Hk. unfold wd. rewrite M2 by lia. reflexivity.
      * unfold wd. rewrite M2 by lia. exact Ht.
      * right. rewrite <- K5. change ((hs + p) / 2) with i.
        split; [lia|]. split; [reflexivity|].
        split; [unfold wd; subst s2; cbn [mem with_mem with_fch]; rewrite !upd_other, upd_same, u16_small by lia; lia|].
        split; [unfold wd; rewrite M2 by lia; exact W1|]. split; [unfold wd; rewrite M2 by lia; exact W2|].
        unfold wd; subst s2; cbn [mem with_mem with_fch]. rewrite upd_same, upd_other, upd_same by lia. split; reflexivity.
    + split; [|intros k Q1 Q2 Q3 _; apply M2; assumption].
      split; [reflexivity|]. split; [reflexivity|]. rewrite <- K5. intros k Hk. apply M2; lia.
  - (* a free chunk follows *)
    replace (hs + (p + z)) with (c + z) in * by lia. set (j := (c + z) / 2) in *.
    destruct (dispose_merge s1 c z p (lastz bs) (T - (p + z))) as (v & Hv & E).
    1-5: apply IC'; [reflexivity | lia].
    1:{ change (c / 2) with i. rewrite V1, W0 by lia. lia. }
    1: lia.
    1:{ change (c / 2) with i. rewrite V1 by lia. exact W1. }
    1: lia.
    1:{ change (c / 2) with i. rewrite V1 by lia. exact W2. }
    1: exact PV.
    1-4: rewrite Enx; apply (inw_cf s); [reflexivity | unfold inw; lia].
    1:{ rewrite Enx. change (c / 2) with i. lia. }
    1:{ rewrite Enx. change ((c + z) / 2) with j. rewrite V1 by lia. exact G0. }
    1-2: lia.
    1-3: rewrite Enx; change ((c + z) / 2) with j; rewrite V1 by lia; assumption.
    1:{ rewrite Hs1. apply (inw_cf s); [reflexivity|]. rewrite u16_small by lia. unfold inw. lia. }
    rewrite E. cbn [hbind]. rewrite Hs1. replace (hs + (p + z) + (T - (p + z))) with (hs + T) by lia.
    rewrite (u16_small (hs + T)) by lia. change (c / 2) with i.
    match goal with |- context [HV (?x, eNOERROR)] => set (s2 := x) end.
    exists s2. split; [reflexivity|].
    assert (M2 : forall k, k <> i -> k <> i + 4 -> k <> i + 5 -> k <> (hs + T) / 2 + 1 -> mem s2 k = mem s k).
    { intros k Q1 Q2 Q3 Q4. subst s2. cbn [mem with_mem with_fch]. rewrite !upd_other by assumption. apply M1; assumption. }
    assert (C2 : cf s2 = cf s) by reflexivity. rewrite C2, <- Ehs, <- ET.
    split.
    + split; [exact Hc|]. split; [|split].
      * apply (chain_below (wd s)); [lia|lia| |exact Hch]. intros k Hk. unfold wd. rewrite M2 by lia. reflexivity.
      * unfold wd. rewrite M2 by lia. exact Ht.
      * right. rewrite <- K5. change ((hs + p) / 2) with i.
        split; [lia|]. split; [reflexivity|].
        split; [unfold wd; subst s2; cbn [mem with_mem with_fch];
                rewrite (upd_other _ (i + 5)), (upd_other _ (i + 4)), (upd_other _ ((hs + T) / 2 + 1)), upd_same, u16_small by lia; lia|].
        split; [unfold wd; rewrite M2 by lia; exact W1|]. split; [unfold wd; rewrite M2 by lia; exact W2|].
        unfold wd; subst s2; cbn [mem with_mem with_fch]. rewrite upd_same, upd_other, upd_same by lia. split; reflexivity.
    + split; [|intros k Q1 Q2 Q3 Q4; apply M2; assumption].
      split; [reflexivity|]. split; [reflexivity|]. rewrite <- K5. intros k Hk. apply M2; lia.
Qed.
