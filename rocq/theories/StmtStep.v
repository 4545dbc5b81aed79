(** Running the single instructions of statements. *)

From Coq Require Import ZArith Bool List Lia ZifyBool.
From Verif Require Import Words WordLemmas State StateLemmas Opcodes EncodeModel SetModel LongModel Machine VmSpec VmProofs MemProofs MultiProofs
  OptSpec OptUnaryStep ExprModel ExprSpec ExprRun ExprOps ExprLoad ExprProofs StmtModel StmtSpec StmtPlain StmtRun StmtStore.
Import ListNotations.
Open Scope Z_scope.

Lemma mod_zero T z : is32 T = false -> inr T z = true -> (z mod 65536 =? 0) = (z =? 0).
Proof. unfold inr. destruct T; cbn; intros L H; try discriminate; lia. Qed.
Lemma mod_equal T y z : is32 T = false -> inr T y = true -> inr T z = true -> (y mod 65536 =? z mod 65536) = (y =? z).
Proof. unfold inr. destruct T; cbn; intros L H K; try discriminate; lia. Qed.

Lemma rw_equal c (e : bool) a b : (c, e) = (oEQU, true) \/ (c, e) = (oNEQ, false) -> 0 <= a < 65536 -> 0 <= b < 65536 ->
  rewrites (mkOp c 0 0) 0 [a; b] [(if Bool.eqb (a =? b) e then -1 else 0) mod 65536].
Proof.
  intros C A B. assert (X : [a; b] = [a mod 65536] ++ [b mod 65536]) by (rewrite !Z.mod_small by lia; reflexivity). rewrite X.
  destruct C as [[= -> ->]|[= -> ->]].
  - pose proof (rw_word_rel Equal a b ltac:(unfold u16r; lia) ltac:(unfold u16r; lia)) as R. cbn [word_rel holds_rel] in R.
    destruct (a =? b); exact R.
  - pose proof (rw_word_rel Unequal a b ltac:(unfold u16r; lia) ltac:(unfold u16r; lia)) as R. cbn [word_rel holds_rel] in R.
    destruct (a =? b); exact R.
Qed.

Lemma rw_advance (down : bool) z : rewrites (mkOp (if down then oDEC else oINC) 0 0) 0 [z mod 65536] [(if down then z - 1 else z + 1) mod 65536].
Proof.
  destruct down; (eapply rw_unary; [cbn [In unary_ops]; repeat first [left; reflexivity|right]|exact I|]);
    intros r (x' & S & W); apply signed16_cong in S; destruct S as (k & ->); apply word16_mod in W; subst r; apply (mod_cong _ _ k); lia.
Qed.

Lemma s16_back v : -32768 <= v <= 32767 -> s16 (v mod 65536) = v.
Proof. intros H. unfold s16, u16. rewrite Z.mod_mod by lia. destruct (v mod 65536 <? 32768) eqn:E; lia. Qed.

Lemma run_pseudo prog i s p : nth_error prog i = Some p -> is_pseudo p = true -> runs prog (i, s) (S i, s).
Proof. intros. apply runs_one. eapply step_pseudo; eauto. Qed.

Section Step.
  Variables (lev : Z) (xs : list var) (adr : var -> Z) (links : Z -> Prop) (base : Z) (s0 : st).
  Hypothesis P : placed lev xs adr links base s0.
  Hypothesis Even : c_ssz (cf s0) mod 2 = 0.
  Notation ready := (ready xs adr links base s0).
  Notation moves := (moves xs adr).
  Notation effect := (effect xs adr).

  Lemma moves_sp s s1 ws r r1 : ready s r -> moves s s1 ws r1 -> 2 * Z.of_nat (length ws) <= sp s1 /\ 0 <= sp s.
  Proof. clear Even. intros (_ & _ & B & _) (_ & E & _). pose proof (pl_base _ _ _ _ _ _ P). lia. Qed.

  Lemma run_jmp prog i j l s s1 us r r1 : nth_error prog i = Some (mkOp oJMP 0 l) -> labelled prog l j -> ready s r -> moves s s1 us r1 ->
    exists s2, runs prog (i, s1) (j, s2) /\ moves s s2 us r1.
  Proof.
    intros N L Rd M. destruct (jump_always s1 l) as (s2 & F & S). exists s2. split.
    - apply runs_one. eapply step_jumps; [exact N|reflexivity|exact F|exact L].
    - assert (E : us ++ [] = us) by apply app_nil_r. rewrite <- E in M. rewrite <- E.
      apply (moves_top lev xs adr links base s0 P Even s s1 s2 us [] [] r r1 Rd M S).
  Qed.

  Lemma run_equz prog i j l s s1 us w r r1 : nth_error prog i = Some (mkOp oJEQUZ 0 l) -> (w = 0 -> labelled prog l j) ->
    ready s r -> moves s s1 (us ++ [w]) r1 -> room s1 0 ->
    exists s2, runs prog (i, s1) ((if w =? 0 then j else S i), s2) /\ moves s s2 us r1.
  Proof.
    intros N L Rd M R. pose proof (moves_sp _ _ _ _ _ Rd M) as (Q & _). rewrite app_length in Q. cbn [length] in Q.
    pose proof (tops1 _ _ (moves_tops xs adr s s1 us [w] r1 M)) as T.
    destruct (jump_equz s1 w l (room_sp _ _ R ltac:(lia)) ltac:(lia) T) as (s2 & F & S). exists s2. split.
    - apply runs_one. destruct (w =? 0) eqn:W.
      + eapply step_jumps; [exact N|reflexivity|exact F|apply L; lia].
      + eapply step_falls; [exact N|reflexivity|exact F|reflexivity].
    - pose proof (moves_top lev xs adr links base s0 P Even s s1 s2 us [w] [] r r1 Rd M S) as X. rewrite app_nil_r in X. exact X.
  Qed.

  Lemma run_two prog i j c k (h : bool) l s s1 us a b r r1 : nth_error prog i = Some (mkOp k 0 l) -> In (c, k) jump_pairs2 ->
    rewrites (mkOp c 0 0) 0 [a; b] [(if h then -1 else 0) mod 65536] -> (h = true -> labelled prog l j) ->
    ready s r -> moves s s1 (us ++ [a; b]) r1 -> room s1 0 ->
    exists s2, runs prog (i, s1) ((if h then j else S i), s2) /\ moves s s2 us r1.
  Proof.
    intros N I Rw L Rd M R. pose proof (moves_sp _ _ _ _ _ Rd M) as (Q & _). rewrite app_length in Q. cbn [length] in Q.
    destruct (jump_two c k h s1 a b l I Rw R ltac:(lia) (moves_tops xs adr s s1 us [a; b] r1 M)) as (s2 & F & S).
    assert (Ps : is_pseudo (mkOp k 0 l) = false).
    { cbn [In jump_pairs2] in I. repeat (destruct I as [I|I]; [injection I as <- <-; reflexivity|]). destruct I. }
    assert (Pc : is_call (mkOp k 0 l) = false).
    { cbn [In jump_pairs2] in I. repeat (destruct I as [I|I]; [injection I as <- <-; reflexivity|]). destruct I. }
    exists s2. split.
    - apply runs_one. destruct h.
      + eapply step_jumps; [exact N|exact Ps|exact F|apply L; reflexivity].
      + eapply step_falls; [exact N|exact Ps|exact F|exact Pc].
    - pose proof (moves_top lev xs adr links base s0 P Even s s1 s2 us [a; b] [] r r1 Rd M S) as X. rewrite app_nil_r in X. exact X.
  Qed.

  Lemma run_insn prog i p k s s1 us vs ws r r1 : nth_error prog i = Some p -> plain p -> rewrites p k vs ws ->
    ready s r -> moves s s1 (us ++ vs) r1 -> room s1 k ->
    exists s2, runs prog (i, s1) (S i, s2) /\ moves s s2 (us ++ ws) r1.
  Proof.
    intros N Pl Rw Rd M R. pose proof (moves_sp _ _ _ _ _ Rd M) as (Q & _). rewrite app_length in Q.
    Local Transparent rewrites.
    destruct (Rw s1 R ltac:(lia) (moves_tops xs adr s s1 us vs r1 M)) as (s2 & E & S). exists s2. split.
    - destruct (plain_flow s1 p Pl) as (Q1 & Q3 & Q2). rewrite E in Q2. apply runs_one. eapply step_falls; eauto.
    - apply (moves_top lev xs adr links base s0 P Even s s1 s2 us vs ws r r1 Rd M S).
  Qed.

  (** Popping one word *)
  Lemma run_pop prog i s s1 us w r r1 : nth_error prog i = Some (mkOp oINDS 0 (-2 mod 65536)) -> ready s r -> moves s s1 (us ++ [w]) r1 -> room s1 0 ->
    exists s2, runs prog (i, s1) (S i, s2) /\ moves s s2 us r1.
  Proof.
    intros N Rd M (R1 & R2 & R3 & R4). pose proof (moves_sp _ _ _ _ _ Rd M) as (Q & _). rewrite app_length in Q. cbn [length] in Q.
    pose proof (flow_inds s1 (-2 mod 65536) ltac:(lia)) as F. rewrite s16_back in F by lia.
    replace ((0 <=? sp s1 + -2) && (sp s1 + -2 <? c_ssz (cf s1))) with true in F by lia.
    eexists. split; [apply runs_one; eapply step_falls; [exact N|reflexivity|exact F|reflexivity]|].
    pose proof (moves_top lev xs adr links base s0 P Even s s1 (with_pc (with_sp s1 (u16 (sp s1 + -2))) (u16 (pc s1 + 3))) us [w] [] r r1 Rd M) as X.
    rewrite app_nil_r in X. apply X. apply pop_effect; [cbn; lia|unfold same_regs; cbn; tauto| |reflexivity].
    cbn [sp with_pc with_sp length]. rewrite u16_small by lia. cbn. lia.
  Qed.

  Lemma run_load prog i x s s1 us r r1 : nth_error prog i = Some (refer lev oLDS x) -> vty x = xInteger -> In x xs ->
    ready s r -> moves s s1 us r1 -> room s1 1 ->
    exists s2, runs prog (i, s1) (S i, s2) /\ moves s s2 (us ++ [r1 x mod 65536]) r1.
  Proof.
    intros N T Hx Rd M R. pose proof (moves_ready lev xs adr links base s0 P s s1 us r r1 Rd M) as Rd1.
    assert (C : computes lev [refer lev oLDS x] 1 [x] r1 [r1 x mod 65536]).
    { apply (load_word lev oLDS Word); [cbn; tauto| |reflexivity]. intros s' a. rewrite T. cbn. tauto. }
    destruct (run_expr lev xs adr links base s0 P Even prog i [refer lev oLDS x] 1 [x] [r1 x mod 65536] s1 r1) as (s2 & E & M2); auto.
    - intros [|[|k]] p K; cbn in K; try discriminate. injection K as <-. rewrite Nat.add_0_r. exact N.
    - repeat constructor. apply refer_plain; reflexivity.
    - intros y [<-|[]]. exact Hx.
    - exists s2. split; [cbn [length] in E; rewrite Nat.add_1_r in E; exact E|].
      apply (moves_trans lev xs adr links base s0 P s s1 s2 us [r1 x mod 65536] r r1 r1 Rd M M2).
  Qed.

  Lemma run_storing prog i x s s1 us r r1 z : stands prog i (store_code lev x) ->
    ready s r -> moves s s1 (us ++ words (vty x) z) r1 -> room s1 1 -> In x xs ->
    class_of (vty x) <> None -> storable (vty x) z = true ->
    exists s2, runs prog (i, s1) ((i + length (store_code lev x))%nat, s2) /\ moves s s2 us (set r1 x z).
  Proof.
    intros St Rd M R Hx C Sz. destruct (run_store lev xs adr links base s0 P Even s s1 us r r1 x z Rd M R Hx C Sz) as (s2 & E & M2).
    exists s2. split; [apply runs_plain; [exact St|apply store_plain|exact E]|exact M2].
  Qed.

  Lemma moves_again s s1 us r r1 r2 s2 : ready s r -> moves s s1 us r1 -> moves s1 s2 [] r2 -> moves s s2 us r2.
  Proof.
    intros Rd A B. pose proof (moves_trans lev xs adr links base s0 P s s1 s2 us [] r r1 r2 Rd A B) as X. rewrite app_nil_r in X. exact X.
  Qed.

  (** Leaving a loop *)
  Lemma effect_0 s s' r' : effect s s' 0 r' -> moves s s' [] r'.
  Proof using. clear.
    intros (A & B & C & D). split; [exact A|]. split; [cbn; lia|]. split; [intros [|k] v K; discriminate|]. split; [|exact C].
    intros i Hi N. apply D; [|exact N]. rewrite B, Z.add_0_r. exact Hi.
  Qed.
  Lemma effect_after s s1 us r r1 s' d r' : ready s r -> moves s s1 us r1 -> effect s1 s' d r' ->
    2 * Z.of_nat (length us) + d <= 0 -> effect s s' (2 * Z.of_nat (length us) + d) r'.
  Proof.
    clear Even. intros (R1 & R2 & R3 & R4) (A1 & A2 & A3 & A4 & A5) (B1 & B2 & B3 & B4) L.
    split; [apply (same_regs_trans _ _ _ A1 B1)|]. split; [lia|]. split; [exact B3|].
    intros i Hi N. rewrite B4 by auto. apply A4; [|exact N].
    assert (sp s' / 2 <= sp s / 2) by (apply Z.div_le_mono; lia). lia.
  Qed.

  Definition adjust_code (A : Z) : list opType := if A =? 0 then [] else [mkOp oINDS 0 (A mod 65536)].
  Lemma run_leave prog i j l A s r : stands prog i (adjust_code A ++ [mkOp oJMP 0 l]) -> labelled prog l j ->
    ready s r -> room s 0 -> -32768 <= A <= 0 -> base <= (sp s + A) / 2 ->
    exists s', runs prog (i, s) (j, s') /\ effect s s' A r.
  Proof.
    intros St L Rd (R1 & R2 & R3 & R4) HA HB. pose proof (pl_base _ _ _ _ _ _ P) as Bs. apply stands_app in St. destruct St as (St1 & St2).
    apply stands_cons in St2. destruct St2 as (St2 & _). pose proof Rd as (_ & _ & _ & Hd).
    unfold adjust_code in *. destruct (A =? 0) eqn:Z0.
    - assert (A = 0) by lia. subst A. cbn [length] in St2. rewrite Nat.add_0_r in St2.
      destruct (run_jmp prog i j l s s [] r r St2 L Rd (moves_refl xs adr links base s0 s r Rd)) as (s2 & E & M).
      exists s2. split; [exact E|]. destruct M as (M1 & M2 & M3 & M4 & M5). cbn [length] in M2.
      split; [exact M1|]. split; [lia|]. split; [exact M5|]. intros k K N. apply M4; [|exact N]. replace (sp s) with (sp s2) by lia. exact K.
    - apply stands_cons in St1. destruct St1 as (St1 & _). cbn [length] in St2. rewrite Nat.add_1_r in St2.
      pose proof (flow_inds s (A mod 65536) ltac:(lia)) as F. rewrite s16_back in F by lia.
      replace ((0 <=? sp s + A) && (sp s + A <? c_ssz (cf s))) with true in F by lia.
      set (s1 := with_pc (with_sp s (u16 (sp s + A))) (u16 (pc s + 3))) in *.
      destruct (jump_always s1 l) as (s2 & F2 & S2). exists s2. split.
      + eapply runs_step; [eapply step_falls; [exact St1|reflexivity|exact F|reflexivity]|].
        apply runs_one. eapply step_jumps; [exact St2|reflexivity|exact F2|exact L].
      + destruct S2 as (S1 & S2 & S3 & S4). cbn [length] in S2.
        assert (Q : sp s1 = sp s + A) by (unfold s1; cbn [sp with_pc with_sp]; rewrite u16_small by lia; reflexivity).
        assert (Rg : same_regs s s2) by (apply (same_regs_trans s s1 s2); [unfold same_regs, s1; cbn; tauto|exact S1]).
        assert (Rd0 : forall k, rd s1 k = rd s k) by reflexivity.
        split; [exact Rg|]. split; [lia|]. split.
        * apply (held lev xs adr links base s0 P Even s s2 r); [apply Rd|exact Rg| |exact Hd].
          intros k K. rewrite S4; [apply Rd0|]. rewrite Q. lia.
        * intros k K _. rewrite S4; [apply Rd0|]. replace (sp s1) with (sp s2) by lia. lia.
  Qed.
End Step.
