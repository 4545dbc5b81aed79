(** Array elements: loads and stores. *)

From Coq Require Import ZArith Bool List Lia ZifyBool.
From Verif Require Import Words WordLemmas State StateLemmas Opcodes EncodeModel SetModel LongModel Machine VmSpec
  LongSpec VmProofs MemProofs MultiProofs LongProofs ExprModel ExprSpec ExprRun ExprOps ExprLoad ExprProofs ExprMain ExprAccept ExprTotal
  OptSpec StmtModel StmtSpec StmtPlain StmtRun StmtStore ArrModel ArrSpec ArrProofs.
From Verif Require DeclModel DeclSpec.
Import ListNotations.
Open Scope Z_scope.
Local Transparent rewrites.

Definition abase (a : arr) : var := mkVar (aty a) (alev a) (aoff a).

Definition loadx_op (t : etype) : Z :=
  match t with xShortInteger => oLDSXB | xShortWord | xChar => oULDSXB | _ => oLDSX end.
Definition load_code (lev : Z) (a : arr) : list opType :=
  if is32 (aty a) then [lpush 4; refer lev oLDSXM (abase a)] else [refer lev (loadx_op (aty a)) (abase a)].
Definition storex_op (t : etype) : Z :=
  match t with xShortInteger | xShortWord | xChar => oSTSXB | _ => oSTSX end.
Definition xstore_code (lev : Z) (a : arr) : list opType :=
  if is32 (aty a) then [lpush 4; refer lev oSTSXM (abase a)] else [refer lev (storex_op (aty a)) (abase a)].

Lemma xref_eq lev opc v x c : In opc [oLDSX; oLDSXB; oULDSXB; oLDSXM; oSTSX; oSTSXB; oSTSXM] ->
  sLevel v = vlev x -> vOffset v = voff x -> g_level c = lev -> addressable lev x ->
  stack_ref opc v c = append (refer lev opc x) c.
Proof.
  intros I L O G (A1 & A2 & A3). unfold stack_ref, refer. rewrite L, O, G.
  assert (H16 : has16 opc = true /\ has16 (level0 opc) = true /\ has8 opc = true /\ has8 (level0 opc) = false /\ 0 <= level0 opc).
  { cbn [In] in I. repeat (destruct I as [I|I]; [subst opc; repeat split; try reflexivity; vm_compute; discriminate|]). destruct I. }
  destruct H16 as (H1 & H2 & H3 & H4 & H5).
  destruct (vlev x =? 0) eqn:E; cbn [andb].
  - replace (0 <=? level0 opc) with true by lia. replace (voff x <? 0) with false by lia.
    unfold emit. rewrite H2, H4. cbn [andb error_if].
    replace ((voff x <? -32768) || (65535 <? voff x)) with false by lia. cbn [error_if].
    f_equal. f_equal. apply u16_small. lia.
  - unfold emit. rewrite H1, H3. cbn [andb].
    rewrite u16_small by lia. replace (255 <? lev - vlev x) with false by lia. cbn [error_if].
    replace ((voff x <? -32768) || (65535 <? voff x)) with false by lia. cbn [error_if].
    f_equal. unfold u8, u16. f_equal. apply Z.mod_small. lia.
Qed.

Section Element.
  Variables (lev : Z) (a : arr).
  Hypothesis Pr : proper a.
  Hypothesis Re : reachable lev a.

  Lemma elem_size : 1 <= size_of (aty a) <= 4.
  Proof using Pr. apply var_size. apply Pr. Qed.
  Lemma asize_pos : 1 <= asize a.
  Proof using Pr.
    pose proof elem_size. destruct Pr as (_ & _ & F & _). unfold asize.
    pose proof (product_bound (abounds a) (size_of (aty a)) ltac:(lia)) as X.
    assert (Y : Forall (fun i => fst i <= snd i) (abounds a)) by (eapply Forall_impl; [|exact F]; intros ? (? & _); assumption).
    specialize (X Y). lia.
  Qed.
  Lemma base_addressable : addressable lev (abase a).
  Proof.
    pose proof asize_pos. destruct Pr as (_ & _ & _ & W & _). destruct Re as (A & B & C). split; [exact A|split; [exact B|]].
    cbn [abase vlev voff]. destruct (alev a =? 0); lia.
  Qed.

  Section At.
    Variable vs : list Z.
    Hypothesis Bd : Forall2 bounded (abounds a) vs.
    Let d := distance (size_of (aty a)) (abounds a) vs.

    Lemma d_range : 0 <= d /\ d + size_of (aty a) <= asize a.
    Proof using Pr Bd. apply distance_inside; [pose proof elem_size; lia|exact Bd]. Qed.
    Lemma d_mod : d mod 65536 = d.
    Proof using Pr Bd.
      pose proof d_range. pose proof elem_size. destruct Pr as (_ & _ & _ & W & _). apply Z.mod_small. lia.
    Qed.

    Lemma elem_addressable : addressable lev (elem a vs).
    Proof.
      pose proof d_range. pose proof elem_size. destruct Pr as (_ & _ & _ & W & _). destruct Re as (A & B & C).
      split; [exact A|split; [exact B|]]. cbn [elem vlev voff]. fold d. destruct (alev a =? 0); lia.
    Qed.

    Lemma same_sign z : alev a <> 0 -> signed16 (aoff a mod 65536) z -> z = aoff a /\ (0 <= z \/ z + d < 0).
    Proof.
      intros N Hz. pose proof d_range. pose proof elem_size. pose proof asize_pos. destruct Pr as (_ & _ & _ & W & _). destruct Re as (A & B & C).
      replace (alev a =? 0) with false in C by lia.
      assert (E : z = aoff a) by (apply signed16_val; [lia|exact Hz]). split; [exact E|]. lia.
    Qed.

    Lemma elem_ea s ad : var_address lev s (elem a vs) ad ->
      if alev a =? 0 then global_ea s (aoff a) d ad else frame_ea s (lev - alev a) (aoff a mod 65536) d ad.
    Proof.
      unfold var_address. cbn [elem vlev voff]. fold d. destruct (alev a =? 0) eqn:E.
      - unfold global_ea. replace (c_spb (cf s) + (aoff a + d) + 0) with (c_spb (cf s) + aoff a + d) by lia. tauto.
      - intros (g & z & R1 & R2 & R3). exists g, (aoff a). split; [exact R1|].
        pose proof d_range. pose proof elem_size. pose proof asize_pos. destruct Pr as (_ & _ & _ & W & _). destruct Re as (A & B & C).
        rewrite E in C. assert (z = aoff a + d) by (apply signed16_val; [lia|exact R2]). subst z.
        split.
        + split; [lia|]. exists (- (aoff a / 65536)). lia.
        + destruct (aoff a >=? 0) eqn:G.
          * replace (aoff a + d >=? 0) with true in R3 by lia. replace (g + 10 + aoff a + d) with (g + 10 + (aoff a + d) + 0) by lia. exact R3.
          * replace (aoff a + d >=? 0) with false in R3 by lia. replace (g + aoff a + d) with (g + (aoff a + d) + 0) by lia. exact R3.
    Qed.

    Lemma load_elem ps k xs env : computes lev ps k xs env [d mod 65536] -> 0 <= k ->
      computes lev (ps ++ load_code lev a) (k + 2) (xs ++ [elem a vs]) env (words (aty a) (env (elem a vs))).
    Proof.
      intros C K s R L. rewrite d_mod in C. pose proof d_range as Dr. pose proof elem_size as Es. pose proof Pr as (_ & _ & _ & W & Cl).
      destruct (C s) as (s1 & E1 & P1); [eapply room_mono; [exact R|lia]|intros x Hx; apply L, in_or_app; auto|].
      assert (Lx : located lev s (elem a vs) (env (elem a vs))) by (apply L, in_or_app; right; left; reflexivity).
      set (z := env (elem a vs)) in *. rewrite exec_app, E1. unfold load_code, words. destruct (is32 (aty a)) eqn:T.
      - destruct (push_insn s1 0 4) as (s2 & E2 & F2 & _); [|lia|].
        { apply (room_mono _ (k + 2 - Z.of_nat (length [d]))); [|cbn [length]; lia]. apply (room_pushed s s1 _ _ P1 R). }
        pose proof (pushed_app _ _ _ _ _ P1 (effect_pushed _ _ _ F2)) as P2. cbn [app] in P2.
        destruct (located_above _ _ _ _ _ _ Lx P2) as (ad & A & B & Cn).
        assert (C' : ad mod 2 = 0 /\ rd s2 (ad / 2) = Some (z mod 65536) /\ rd s2 (ad / 2 + 1) = Some ((z / 65536) mod 65536))
          by (cbn [elem vty] in Cn; destruct (aty a); try discriminate T; exact Cn).
        clear Cn. destruct C' as (Ev & C1 & C2).
        assert (Sz : size_of (aty a) = 4) by (destruct (aty a); try discriminate T; reflexivity). cbn [elem vty] in B. rewrite Sz in B.
        pose proof P2 as ((Cf & _) & Sp & Wd & _). cbn [length] in Sp.
        assert (Half : sp s2 / 2 = sp s / 2 + 2) by (rewrite Sp; lia).
        assert (T0 : tos s2 0 = Some 4) by (unfold tos; rewrite <- (Wd 1%nat 4 eq_refl); f_equal; lia).
        assert (T1 : tos s2 1 = Some d) by (unfold tos; rewrite <- (Wd 0%nat d eq_refl); f_equal; lia).
        destruct R as (R1 & R2 & R3 & R4).
        assert (M : forall c len EA i8 i16, In (c, len, true, EA) loadm_ops -> EA s2 i8 i16 d ad ->
           exists s', exec_insn s2 (mkOp c i8 i16) = Ok s' /\ pushed s s' [z mod 65536; (z / 65536) mod 65536]).
        { intros c len EA i8 i16 Hin HEA.
          assert (a0 : 0 <= ad) by (apply rd_some in C1; destruct C1 as (C1 & _); unfold in_word in C1; lia).
          destruct (loadm_ops_correct c len true EA s2 i8 i16 d ad 4 (sp s) Hin) as (s' & E & SR & SP & _ & BC & FR).
          - rewrite Sp. lia.
          - lia.
          - exact T0.
          - intros _; exact T1.
          - exact HEA.
          - lia.
          - change (words_of 4) with 2. rewrite Cf. lia.
          - rewrite Cf; lia.
          - rewrite Cf; lia.
          - intros _. rewrite Cf. split; [exact Ev|]. split; [lia|]. left. lia.
          - exists s'. split; [exact E|]. change (words_of 4) with 2 in *.
            pose proof SR as (Cf' & _).
            split; [|split; [|split]].
            + apply (same_regs_trans s s2 s'); [apply P2|exact SR].
            + cbn [length]. lia.
            + assert (G : forall k v, 0 <= k <= 1 -> rd s2 (ad / 2 + k) = Some v -> rd s' (sp s / 2 + 1 + k) = Some v).
              { intros k0 v Hk Hv. apply (copied_word s2 s' (ad / 2 + k0) (sp s / 2 + 1 + k0)); auto; rewrite ?Cf; try lia.
                - replace (2 * (sp s / 2 + 1 + k0)) with (2 * (sp s / 2 + 1) + 2 * k0) by lia.
                  rewrite (BC (2 * k0)) by lia. f_equal. lia.
                - replace (2 * (sp s / 2 + 1 + k0) + 1) with (2 * (sp s / 2 + 1) + (2 * k0 + 1)) by lia.
                  rewrite (BC (2 * k0 + 1)) by lia. f_equal. lia. }
              intros [|[|j]] v J; cbn [nth_error] in J; [| |destruct j; discriminate J]; injection J as <-.
              * change (Z.of_nat 0) with 0. apply G; [lia|]. replace (ad / 2 + 0) with (ad / 2) by lia. exact C1.
              * change (Z.of_nat 1) with 1. apply G; [lia|exact C2].
            + intros i Hi. rewrite FR by lia. apply P2. lia. }
        apply elem_ea in A. cbn [exec_list]. unfold lpush. rewrite E2. unfold refer. cbn [abase vlev voff]. destruct (alev a =? 0).
        + destruct (M (level0 oLDSXM) 3 (fun s (_ imm16 i a : Z) => global_ea s imm16 i a) 0 (aoff a)) as (s' & E & F);
            [cbn [In loadm_ops]; tauto|exact A|]. rewrite E. exists s'. auto.
        + destruct (M oLDSXM 4 (fun s (imm8 imm16 i a : Z) => frame_ea s imm8 imm16 i a) (lev - alev a) (aoff a mod 65536)) as (s' & E & F);
            [cbn [In loadm_ops]; tauto|exact A|]. rewrite E. exists s'. auto.
      - destruct (located_above _ _ _ _ _ _ Lx P1) as (ad & A & B & Cn). apply elem_ea in A. cbn [elem vty] in Cn.
        set (w := match aty a with xShortInteger => SByte | xShortWord | xChar => UByte | _ => Word end).
        assert (El : element s1 w ad (z mod 65536)).
        { unfold w. destruct (aty a); try discriminate T; cbn [contains] in Cn; try (destruct Cn as (v & Cn & ->)); try exact Cn. }
        assert (T0 : tos s1 0 = Some d) by (apply tops1, (pushed_tops s s1 [d] P1)).
        assert (Rm : room s1 0).
        { apply (room_mono _ (k + 2 - Z.of_nat (length [d]))); [|cbn [length]; lia]. apply (room_pushed s s1 _ _ P1 R). }
        cbn [exec_list]. unfold refer. cbn [abase vlev voff]. destruct (alev a =? 0) eqn:Lv.
        + assert (X : In (level0 (loadx_op (aty a)), 3, w, true, fun s (_ imm16 i a : Z) => global_ea s imm16 i a) load_ops).
          { unfold w. destruct (aty a); try discriminate T; cbn [In load_ops level0 loadx_op]; tauto. }
          destruct (load_ops_correct _ _ _ _ _ s1 0 (aoff a) d ad (z mod 65536) X Rm (fun _ => T0) A El) as (s' & E & F & _).
          rewrite E. exists s'. split; [reflexivity|]. apply (pushed_then s s1 s' [] [d] [z mod 65536] P1 F).
        + assert (X : In (loadx_op (aty a), w) frame_loadx_ops).
          { unfold w. destruct (aty a); try discriminate T; cbn [In frame_loadx_ops loadx_op]; tauto. }
          destruct (frame_loadx_correct _ _ s1 (lev - alev a) (aoff a mod 65536) d ad (z mod 65536) X T0 A) as (s' & E & F & _).
          { intros y Hy. apply same_sign; [lia|exact Hy]. } { exact El. }
          rewrite E. exists s'. split; [reflexivity|]. apply (pushed_then s s1 s' [] [d] [z mod 65536] P1 F).
    Qed.

    Section Store.
      Variables (xs : list var) (adr : var -> Z) (links : Z -> Prop) (base : Z) (s0 : st).
      Hypothesis P : placed lev xs adr links base s0.
      Hypothesis Even : c_ssz (cf s0) mod 2 = 0.
      Notation ready := (ready xs adr links base s0).
      Notation moves := (moves xs adr).

      Lemma store_elem s s1 r r1 z : ready s r -> moves s s1 (d :: words (aty a) z) r1 -> room s1 1 -> In (elem a vs) xs ->
        storable (aty a) z = true ->
        exists s2, exec_list (xstore_code lev a) s1 = Ok s2 /\ moves s s2 [] (set r1 (elem a vs) z).
      Proof.
        intros Rd M Rm Hx Sz. pose proof Pr as (_ & _ & _ & _ & Cl). pose proof Rd as (R1 & R2 & R3 & R4). set (x := elem a vs) in *.
        destruct (pl_vars _ _ _ _ _ _ P x Hx) as (V1 & V2 & V3). change (vty x) with (aty a) in *.
        pose proof (moves_ready lev xs adr links base s0 P _ _ _ _ _ Rd M) as (Q1 & Q2 & Q3 & Q4).
        pose proof (pl_addr _ _ _ _ _ _ P s1 Q1 Q2 x Hx) as Ad.
        pose proof M as (A1 & A2 & A3 & A4 & A5). cbn [length] in A2.
        pose proof Rm as (M1 & M2 & M3 & M4).
        pose proof (pl_base _ _ _ _ _ _ P) as Bs.
        assert (Half : sp s1 / 2 = sp s / 2 + 1 + Z.of_nat (length (words (aty a) z))).
        { rewrite A2. rewrite half_add. lia. }
        assert (Tp : tops s1 (d :: words (aty a) z)) by exact (moves_tops xs adr s s1 [] _ r1 M).
        unfold xstore_code. destruct (is32 (aty a)) eqn:L.
        - (* two words *)
          unfold words in Tp, A2, Half, M. rewrite L in Tp, A2, Half, M. cbn [length] in A2, Half.
          assert (Sz4 : size_of (aty a) = 4) by (destruct (aty a); try discriminate L; reflexivity).
          destruct (push_insn s1 0 4 Rm ltac:(lia)) as (s2 & E2 & F2 & _).
          pose proof F2 as (G1 & G2 & G3 & G4). cbn [length] in G2, G4.
          specialize (G3 0%nat 4 eq_refl).
          assert (T0 : tos s2 0 = Some 4) by (unfold tos; rewrite <- G3; f_equal; lia).
          pose proof (Tp 0%nat _ eq_refl) as Wi. pose proof (Tp 1%nat _ eq_refl) as W0. pose proof (Tp 2%nat _ eq_refl) as W1. cbn [length] in Wi, W0, W1.
          assert (T3 : tos s2 3 = Some d) by (unfold tos; rewrite G4 by lia; rewrite <- Wi; f_equal; lia).
          specialize (V3 ltac:(rewrite Sz4; discriminate)). rewrite Sz4 in V2.
          assert (Ad2 : var_address lev s2 x (adr x)).
          { apply (pl_addr _ _ _ _ _ _ P); [apply (same_regs_trans _ _ _ Q1 G1)| |exact Hx].
            intros i Li. destruct (pl_links _ _ _ _ _ _ P i Li) as (L1 & _). rewrite G4 by lia. apply Q2, Li. }
          apply elem_ea in Ad2.
          assert (Cf2 : cf s2 = cf s1) by (destruct G1; assumption).
          assert (Run : forall c len EA i8 i16, In (c, len, true, EA) storem_ops -> EA s2 i8 i16 d (adr x) ->
            exists s3, exec_insn s2 (mkOp c i8 i16) = Ok s3 /\ moves s s3 [] (set r1 x z)).
          { intros c len EA i8 i16 Hin HEA.
            destruct (storem_ops_correct c len true EA s2 i8 i16 d (adr x) 4 3 Hin T0) as (s3 & E3 & S3 & Sp3 & _ & B3 & U3);
              try lia; try reflexivity; try discriminate; try (rewrite Cf2; lia).
            - intros _. exact T3.
            - assumption.
            - rewrite Cf2. intros _. split; [exact V3|]. split; [lia|]. left. change (words_of 4) with 2. lia.
            - exists s3. split; [exact E3|]. change (words_of 4) with 2 in B3.
              assert (Cf3 : cf s3 = cf s2) by (destruct S3; assumption).
              apply (moves_store lev xs adr links base s0 P Even s s1 s3 [] [d; z mod 65536; (z / 65536) mod 65536] r r1 x z Rd M Hx).
              + apply (same_regs_trans _ _ _ G1 S3).
              + cbn [length]. lia.
              + assert (H0 : rd s2 (sp s2 / 2 - 2) = Some (z mod 65536)) by (rewrite G4 by lia; rewrite <- W0; f_equal; lia).
                assert (H1 : rd s2 (sp s2 / 2 - 1) = Some ((z / 65536) mod 65536)) by (rewrite G4 by lia; rewrite <- W1; f_equal; lia).
                assert (Y : adr x mod 2 = 0 /\ rd s3 (adr x / 2) = Some (z mod 65536) /\ rd s3 (adr x / 2 + 1) = Some ((z / 65536) mod 65536)).
                { split; [exact V3|]. split.
                  - apply (copied_word s2 s3 (sp s2 / 2 - 2)); auto; try (rewrite Cf2; lia); try lia.
                    + specialize (B3 0 ltac:(lia)). rewrite !Z.add_0_r in B3. replace (2 * (adr x / 2)) with (adr x) by lia. exact B3.
                    + specialize (B3 1 ltac:(lia)). replace (2 * (adr x / 2)) with (adr x) by lia. exact B3.
                  - apply (copied_word s2 s3 (sp s2 / 2 - 1)); auto; try (rewrite Cf2; lia); try lia.
                    + specialize (B3 2 ltac:(lia)). replace (2 * (adr x / 2 + 1)) with (adr x + 2) by lia.
                      rewrite B3. f_equal. lia.
                    + specialize (B3 3 ltac:(lia)). replace (2 * (adr x / 2 + 1) + 1) with (adr x + 3) by lia.
                      rewrite B3. f_equal. lia. }
                change (vty x) with (aty a). destruct (aty a); try discriminate L; exact Y.
              + change (vty x) with (aty a). rewrite Sz4. cbn [length]. intros b Hb N. rewrite U3 by exact N. apply rd_rdb'; [exact Cf2|lia|]. apply G4. lia. }
          cbn [exec_list]. unfold lpush. rewrite E2. unfold refer. cbn [abase vlev voff]. destruct (alev a =? 0).
          + destruct (Run oSTXM 3 (fun s _ imm16 i a => global_ea s imm16 i a) 0 (aoff a)) as (s3 & E3 & M3'); [cbn; tauto|exact Ad2|].
            exists s3. change (level0 oSTSXM) with oSTXM. rewrite E3. split; [reflexivity|exact M3'].
          + destruct (Run oSTSXM 4 (fun s imm8 imm16 i a => frame_ea s imm8 imm16 i a) (lev - alev a) (aoff a mod 65536)) as (s3 & E3 & M3'); [cbn; tauto|exact Ad2|].
            exists s3. rewrite E3. split; [reflexivity|exact M3'].
        - (* one word *)
          unfold words in Tp, A2, Half, M. rewrite L in Tp, A2, Half, M. cbn [length] in A2, Half. apply tops2 in Tp. destruct Tp as (Ti & Tp).
          set (byte := size_of (aty a) =? 1). apply elem_ea in Ad.
          assert (Run : forall c len EA i8 i16, In (c, len, byte, true, EA) store_ops -> EA s1 i8 i16 d (adr x) ->
            exists s2, exec_insn s1 (mkOp c i8 i16) = Ok s2 /\ moves s s2 [] (set r1 x z)).
          { intros c len EA i8 i16 Hin HEA.
            destruct (store_ops_correct c len byte true EA s1 i8 i16 d (adr x) (z mod 65536) Hin) as (s2 & E2 & O2 & S2 & Sp2 & _);
              try lia; try discriminate; try assumption; try (intros _; exact Ti).
            - unfold byte. assert (size_of (aty a) = 1 \/ size_of (aty a) = 2) by (destruct (aty a); try discriminate L; cbn; auto).
              destruct (size_of (aty a) =? 1) eqn:B1; cbn [target_ok].
              + apply in_byte_iff. lia.
              + apply in_word_iff. lia.
            - exists s2. split; [exact E2|]. rewrite Z.mod_small in Sp2 by lia.
              assert (Cf2 : cf s2 = cf s1) by (destruct S2; assumption).
              apply (moves_store lev xs adr links base s0 P Even s s1 s2 [] [d; z mod 65536] r r1 x z Rd M Hx S2); [cbn [length]; lia| |]; change (vty x) with (aty a).
              + unfold byte in O2. destruct (aty a) eqn:TY; cbn in O2; try discriminate L; try (exfalso; apply Cl; reflexivity); cbn [contains].
                1,2,6: exact (proj1 O2).
                * exists (z mod 65536). split; [|reflexivity]. cbn [element]. exists ((z mod 65536) mod 256).
                  split; [exact (proj1 O2)|]. rewrite mod_256. apply sbyte_word, Sz.
                * exists (z mod 65536). split; [|reflexivity]. cbn [element]. rewrite (proj1 O2), mod_256. f_equal. cbn [storable] in Sz. clear - Sz. lia.
                * exists (z mod 65536). split; [|reflexivity]. cbn [element]. rewrite (proj1 O2), mod_256. f_equal. cbn [storable] in Sz. clear - Sz. lia.
              + intros b Hb N. unfold byte in O2. destruct (size_of (aty a) =? 1) eqn:B1; cbn [only_stored] in O2.
                * apply (proj2 O2). lia.
                * assert (size_of (aty a) = 2) by (destruct (aty a); try discriminate L; try discriminate B1; reflexivity).
                  apply rd_rdb'; [exact Cf2|exact M4|]. apply (proj2 O2). specialize (V3 ltac:(lia)). lia. }
          cbn [exec_list]. unfold refer. cbn [abase vlev voff]. unfold byte in Run.
          destruct (alev a =? 0).
          + destruct (Run (level0 (storex_op (aty a))) 3 (fun s _ imm16 i a => global_ea s imm16 i a) 0 (aoff a)) as (s3 & E3 & M3').
            { destruct (aty a); try discriminate L; cbn; tauto. } { exact Ad. }
            exists s3. rewrite E3. split; [reflexivity|exact M3'].
          + destruct (Run (storex_op (aty a)) 4 (fun s imm8 imm16 i a => frame_ea s imm8 imm16 i a) (lev - alev a) (aoff a mod 65536)) as (s3 & E3 & M3').
            { destruct (aty a); try discriminate L; cbn; tauto. } { exact Ad. }
            exists s3. rewrite E3. split; [reflexivity|exact M3'].
      Qed.
    End Store.
  End At.
End Element.
