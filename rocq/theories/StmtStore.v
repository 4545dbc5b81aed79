(** Storing to variables. *)

From Coq Require Import ZArith Bool List Lia ZifyBool.
From Verif Require Import Words WordLemmas State StateLemmas Opcodes EncodeModel SetModel LongModel Machine VmSpec VmProofs MemProofs MultiProofs
  OptSpec ExprModel ExprSpec ExprRun ExprOps ExprLoad ExprProofs StmtModel StmtSpec StmtPlain StmtRun.
Import ListNotations.
Open Scope Z_scope.

Definition store_op (t : etype) : Z :=
  match t with xShortInteger | xShortWord | xChar => oSTSB | xLongInteger | xLongWord => oSTSM | _ => oSTS end.
Definition store_code (lev : Z) (x : var) : list opType :=
  if is32 (vty x) then [lpush 4; refer lev oSTSM x] else [refer lev (store_op (vty x)) x].

Lemma refer_plain lev k x : plain_code k = true -> plain_code (level0 k) = true -> plain (refer lev k x).
Proof. intros A B. unfold refer, plain. destruct (vlev x =? 0); assumption. Qed.
Lemma store_plain lev x : Forall plain (store_code lev x).
Proof.
  unfold store_code. destruct (is32 (vty x)); repeat constructor; apply refer_plain; destruct (vty x); reflexivity.
Qed.

Lemma mod_256 z : (z mod 65536) mod 256 = z mod 256.
Proof. symmetry. apply Znumtheory.Zmod_div_mod; [lia|lia|exists 256; reflexivity]. Qed.
Lemma sbyte_word z : (-128 <=? z) && (z <=? 127) = true ->
  word16 (z mod 65536) (if z mod 256 <? 128 then z mod 256 else z mod 256 - 256).
Proof.
  intros H. assert (E : (if z mod 256 <? 128 then z mod 256 else z mod 256 - 256) = z) by (destruct (z mod 256 <? 128) eqn:Q; lia).
  rewrite E. unfold word16. split; [lia|]. exists (- (z / 65536)). lia.
Qed.

Section Store.
  Variables (lev : Z) (xs : list var) (adr : var -> Z) (links : Z -> Prop) (base : Z) (s0 : st).
  Hypothesis P : placed lev xs adr links base s0.
  Hypothesis Even : c_ssz (cf s0) mod 2 = 0.
  Notation ready := (ready xs adr links base s0).
  Notation moves := (moves xs adr).

  Lemma moves_store s s1 s2 us vs r r1 x z : ready s r -> moves s s1 (us ++ vs) r1 -> In x xs ->
    same_regs s1 s2 -> sp s2 = sp s1 - 2 * Z.of_nat (length vs) -> contains s2 (vty x) (adr x) z ->
    (forall b, b < 2 * (sp s / 2 + 1 + Z.of_nat (length us)) -> ~ (adr x <= b < adr x + size_of (vty x)) -> rdb s2 b = rdb s1 b) ->
    moves s s2 us (set r1 x z).
  Proof.
    intros Rd (A1 & A2 & A3 & A4 & A5) Hx S Sp C B. pose proof Rd as (R1 & R2 & R3 & R4).
    rewrite app_length in A2.
    destruct (pl_vars _ _ _ _ _ _ P x Hx) as (V1 & V2 & V3).
    assert (Ce : c_ssz (cf s1) mod 2 = 0) by (destruct A1 as (-> & _); destruct R1 as (-> & _); exact Even).
    assert (Cf : cf s2 = cf s1) by (destruct S; assumption).
    assert (W : forall i, i < sp s / 2 + 1 + Z.of_nat (length us) -> ~ within adr x i -> rd s2 i = rd s1 i).
    { intros i Hi N. unfold within in N. clear - B Hi N Cf Ce. apply rd_of_bytes; auto; apply B; lia. }
    unfold StmtRun.moves. split; [apply (same_regs_trans _ _ _ A1 S)|]. split; [lia|]. split; [|split].
    - intros k v K. assert (k < length us)%nat by (apply nth_error_Some; congruence).
      rewrite W; [|lia|].
      + apply A3. rewrite nth_error_app1 by lia. exact K.
      + refine (above_vars lev xs adr links base s0 P _ _ x Hx). lia.
    - intros i Hi N. rewrite W by (auto; lia). apply A4; assumption.
    - intros y Hy. destruct (var_eqb y x) eqn:Q.
      + apply var_eqb_iff in Q. subst y. rewrite set_same. exact C.
      + assert (N : y <> x) by (intros ->; rewrite (proj2 (var_eqb_iff x x) eq_refl) in Q; discriminate).
        rewrite set_other by exact N.
        destruct (pl_vars _ _ _ _ _ _ P y Hy) as (Y1 & Y2 & Y3).
        pose proof (pl_sep _ _ _ _ _ _ P y x Hy Hx N) as D. unfold disjoint in D.
        apply (contains_bytes s1 s2); [exact Cf|exact Ce|exact Y3| |apply A5, Hy].
        intros b Hb. apply B; [|lia].
        assert (b / 2 <= (adr y + size_of (vty y) - 1) / 2) by (apply Z.div_le_mono; lia). lia.
  Qed.


  (** The words on the stack are stored. *)
  Lemma run_store s s1 us r r1 x z : ready s r -> moves s s1 (us ++ words (vty x) z) r1 -> room s1 1 -> In x xs ->
    class_of (vty x) <> None -> storable (vty x) z = true ->
    exists s2, exec_list (store_code lev x) s1 = Ok s2 /\ moves s s2 us (set r1 x z).
  Proof.
    intros Rd M Rm Hx Cl Sz. pose proof Rd as (R1 & R2 & R3 & R4).
    destruct (pl_vars _ _ _ _ _ _ P x Hx) as (V1 & V2 & V3).
    pose proof (moves_ready lev xs adr links base s0 P _ _ _ _ _ Rd M) as (Q1 & Q2 & Q3 & Q4).
    pose proof (pl_addr _ _ _ _ _ _ P s1 Q1 Q2 x Hx) as Ad.
    pose proof M as (A1 & A2 & A3 & A4 & A5). rewrite app_length in A2.
    pose proof Rm as (M1 & M2 & M3 & M4).
    pose proof (pl_base _ _ _ _ _ _ P) as Bs.
    assert (Half : sp s1 / 2 = sp s / 2 + Z.of_nat (length us) + Z.of_nat (length (words (vty x) z))).
    { rewrite A2. replace (sp s + 2 * Z.of_nat (length us + length (words (vty x) z)))
        with (sp s + 2 * (Z.of_nat (length us) + Z.of_nat (length (words (vty x) z)))) by lia. rewrite half_add. lia. }
    assert (Tp : tops s1 (words (vty x) z)) by exact (moves_tops xs adr s s1 us _ r1 M).
    unfold store_code. destruct (is32 (vty x)) eqn:L.
    - (* two words *)
      unfold words in Tp, A2, Half, M. rewrite L in Tp, A2, Half, M. cbn [length] in A2, Half.
      assert (Sz4 : size_of (vty x) = 4) by (destruct (vty x); try discriminate L; reflexivity).
      destruct (push_insn s1 0 4 Rm ltac:(lia)) as (s2 & E2 & F2 & _).
      pose proof F2 as (G1 & G2 & G3 & G4). cbn [length] in G2, G4.
      specialize (G3 0%nat 4 eq_refl).
      assert (T0 : tos s2 0 = Some 4) by (unfold tos; rewrite <- G3; f_equal; lia).
      specialize (V3 ltac:(rewrite Sz4; discriminate)). rewrite Sz4 in V2.
      assert (Ad2 : var_address lev s2 x (adr x)).
      { apply (pl_addr _ _ _ _ _ _ P); [apply (same_regs_trans _ _ _ Q1 G1)| |exact Hx].
        intros i Li. destruct (pl_links _ _ _ _ _ _ P i Li) as (L1 & _). rewrite G4 by lia. apply Q2, Li. }
      assert (Cf2 : cf s2 = cf s1) by (destruct G1; assumption).
      assert (Run : forall c len EA i8 i16, In (c, len, false, EA) storem_ops -> EA s2 i8 i16 0 (adr x) ->
        exists s3, exec_insn s2 (mkOp c i8 i16) = Ok s3 /\ moves s s3 us (set r1 x z)).
      { intros c len EA i8 i16 Hin HEA.
        destruct (storem_ops_correct c len false EA s2 i8 i16 0 (adr x) 4 2 Hin T0) as (s3 & E3 & S3 & Sp3 & _ & B3 & U3);
          try lia; try reflexivity; try discriminate; try (rewrite Cf2; lia).
        - assumption.
        - rewrite Cf2. intros _. split; [exact V3|]. split; [lia|]. left. change (words_of 4) with 2. lia.
        - exists s3. split; [exact E3|]. change (words_of 4) with 2 in B3.
          assert (Cf3 : cf s3 = cf s2) by (destruct S3; assumption).
          apply (moves_store s s1 s3 us [z mod 65536; (z / 65536) mod 65536] r r1 x z Rd M Hx).
          + apply (same_regs_trans _ _ _ G1 S3).
          + cbn [length]. lia.
          + pose proof (Tp 0%nat _ eq_refl) as W0. pose proof (Tp 1%nat _ eq_refl) as W1. cbn [length] in W0, W1.
            assert (H0 : rd s2 (sp s2 / 2 - 2) = Some (z mod 65536)) by (rewrite G4 by lia; rewrite <- W0; f_equal; lia).
            assert (H1 : rd s2 (sp s2 / 2 - 1) = Some ((z / 65536) mod 65536)) by (rewrite G4 by lia; rewrite <- W1; f_equal; lia).
            assert (Y : adr x mod 2 = 0 /\ rd s3 (adr x / 2) = Some (z mod 65536) /\ rd s3 (adr x / 2 + 1) = Some ((z / 65536) mod 65536)).
            { split; [exact V3|]. split.
              - apply (copied_word s2 s3 (sp s2 / 2 - 2)); auto; try (rewrite Cf2; lia); try lia.
                + specialize (B3 0 ltac:(lia)). rewrite !Z.add_0_r in B3. replace (2 * (adr x / 2)) with (adr x) by lia. exact B3.
                + specialize (B3 1 ltac:(lia)). replace (2 * (adr x / 2)) with (adr x) by lia. exact B3.
              - apply (copied_word s2 s3 (sp s2 / 2 - 1)); auto; try (rewrite Cf2; lia); try lia.
                + specialize (B3 2 ltac:(lia)). replace (2 * (adr x / 2 + 1)) with (adr x + 2) by lia.
                  rewrite B3. f_equal. lia.
                + specialize (B3 3 ltac:(lia)). replace (2 * (adr x / 2 + 1) + 1) with (adr x + 3) by lia.
                  rewrite B3. f_equal. lia. }
            destruct (vty x); try discriminate L; exact Y.
          + rewrite Sz4. intros b Hb N. rewrite U3 by exact N. apply rd_rdb'; [exact Cf2|lia|]. apply G4. lia. }
      cbn [exec_list]. unfold lpush. rewrite E2. unfold refer, var_address in *. destruct (vlev x =? 0).
      + destruct (Run oSTM 3 (fun s _ imm16 _ a => global_ea s imm16 0 a) 0 (voff x)) as (s3 & E3 & M3'); [cbn; tauto|exact Ad2|].
        exists s3. change (level0 oSTSM) with oSTM. rewrite E3. split; [reflexivity|exact M3'].
      + destruct (Run oSTSM 4 (fun s imm8 imm16 _ a => frame_ea s imm8 imm16 0 a) (lev - vlev x) (voff x mod 65536)) as (s3 & E3 & M3'); [cbn; tauto|exact Ad2|].
        exists s3. rewrite E3. split; [reflexivity|exact M3'].
    - (* one word *)
      unfold words in Tp, A2, Half, M. rewrite L in Tp, A2, Half, M. cbn [length] in A2, Half. apply tops1 in Tp.
      set (byte := size_of (vty x) =? 1).
      assert (Run : forall c len EA i8 i16, In (c, len, byte, false, EA) store_ops -> EA s1 i8 i16 0 (adr x) ->
        exists s2, exec_insn s1 (mkOp c i8 i16) = Ok s2 /\ moves s s2 us (set r1 x z)).
      { intros c len EA i8 i16 Hin HEA.
        destruct (store_ops_correct c len byte false EA s1 i8 i16 0 (adr x) (z mod 65536) Hin) as (s2 & E2 & O2 & S2 & Sp2 & _);
          try lia; try discriminate; try assumption.
        - unfold byte. assert (size_of (vty x) = 1 \/ size_of (vty x) = 2) by (destruct (vty x); try discriminate L; cbn; auto).
          destruct (size_of (vty x) =? 1) eqn:B1; cbn [target_ok].
          + apply in_byte_iff. lia.
          + apply in_word_iff. lia.
        - exists s2. split; [exact E2|]. rewrite Z.mod_small in Sp2 by lia.
          assert (Cf2 : cf s2 = cf s1) by (destruct S2; assumption).
          apply (moves_store s s1 s2 us [z mod 65536] r r1 x z Rd M Hx S2); [cbn [length]; lia| |].
          + unfold byte in O2. destruct (vty x) eqn:TY; cbn in O2; try discriminate L; try (exfalso; apply Cl; reflexivity); cbn [contains].
            1,2,6: exact (proj1 O2).
            * exists (z mod 65536). split; [|reflexivity]. cbn [element]. exists ((z mod 65536) mod 256).
              split; [exact (proj1 O2)|]. rewrite mod_256. apply sbyte_word, Sz.
            * exists (z mod 65536). split; [|reflexivity]. cbn [element]. rewrite (proj1 O2), mod_256. f_equal. cbn [storable] in Sz. clear - Sz. lia.
            * exists (z mod 65536). split; [|reflexivity]. cbn [element]. rewrite (proj1 O2), mod_256. f_equal. cbn [storable] in Sz. clear - Sz. lia.
          + intros b Hb N. unfold byte in O2. destruct (size_of (vty x) =? 1) eqn:B1; cbn [only_stored] in O2.
            * apply (proj2 O2). lia.
            * assert (size_of (vty x) = 2) by (destruct (vty x); try discriminate L; try discriminate B1; reflexivity).
              apply rd_rdb'; [exact Cf2|exact M4|]. apply (proj2 O2). specialize (V3 ltac:(lia)). lia. }
      cbn [exec_list]. unfold refer, var_address in *. unfold byte in Run.
      destruct (vlev x =? 0).
      + destruct (Run (level0 (store_op (vty x))) 3 (fun s _ imm16 _ a => global_ea s imm16 0 a) 0 (voff x)) as (s3 & E3 & M3').
        { destruct (vty x); try discriminate L; cbn; tauto. } { exact Ad. }
        exists s3. rewrite E3. split; [reflexivity|exact M3'].
      + destruct (Run (store_op (vty x)) 4 (fun s imm8 imm16 _ a => frame_ea s imm8 imm16 0 a) (lev - vlev x) (voff x mod 65536)) as (s3 & E3 & M3').
        { destruct (vty x); try discriminate L; cbn; tauto. } { exact Ad. }
        exists s3. rewrite E3. split; [reflexivity|exact M3'].
  Qed.
End Store.
