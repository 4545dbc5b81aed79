(** popt_UnaryOptimize *)

From Coq Require Import ZArith Bool List Lia ZifyBool.
From Verif Require Import Words State Opcodes SetModel LongModel Machine WordLemmas StateLemmas VmSpec VmProofs MemProofs
  EncodeSpec OptSpec OptStack OptPure OptStep OptFine OptUnary OptTable OptExcept PoptModel.
Import ListNotations.
Open Scope Z_scope.
Ltac Zify.zify_post_hook ::= Z.div_mod_to_equations.

(** ------------------------------------------------------------------ *)
Ltac wfop := unfold wf_op; cbn [op arg1 arg2];
  refine (conj _ (conj _ (conj _ (conj _ _))));
  [ split; [discriminate || lia|reflexivity || lia] | lia | lia
  | let H := fresh in intros H; first [reflexivity | discriminate H]
  | let H := fresh in intros H; first [reflexivity | discriminate H] ].
Lemma wf_PUSH v : word v -> wf_op (mkOp oPUSH 0 v).
Proof. intros H. unfold word in H. wfop. Qed.
Lemma wf_nop : wf_op nop.
Proof. unfold nop. wfop. Qed.
Lemma wf_op8 z : In z [oINC; oDEC; oNEG; oSLL; oSRL; oSRA; oEQUZ; oNEQZ; oLTZ; oGTEZ; oGTZ; oLTEZ; oSUB; 
    oEQU; oNEQ; oLT; oGTE; oGT; oLTE; oULT; oUGTE; oUGT; oULTE; oDUP] -> wf_op (mkOp z 0 0).
Proof.
  intros H. cbn [In] in H.
  repeat (destruct H as [<-|H]; [wfop|]). contradiction.
Qed.
Lemma wf_jump z l : In z jump_codes -> 0 <= l < 65536 -> wf_op (mkOp z 0 l).
Proof.
  intros H Hl. cbn [jump_codes In] in H.
  repeat (destruct H as [<-|H]; [wfop|]). contradiction.
Qed.

Lemma wf_8 b d : wf_op b -> decode_op8 (op b) = Some d -> b = mkOp (op b) 0 0.
Proof.
  intros (H0 & H1 & H2 & H3 & H4) D. pose proof (dec8_inv _ _ D) as E. destruct b as [z x y]. cbn [op arg1 arg2] in *.
  subst z. rewrite H3, H4 by (destruct d; reflexivity). reflexivity.
Qed.
Lemma wf_24 b d : wf_op b -> decode_op24 (op b) = Some d -> b = mkOp (op b) 0 (arg2 b).
Proof.
  intros (H0 & H1 & H2 & H3 & H4) D. pose proof (dec24_inv _ _ D) as E. destruct b as [z x y]. cbn [op arg1 arg2] in *.
  subst z. rewrite H3 by (destruct d; reflexivity). reflexivity.
Qed.

Lemma expand_push_eq a : wf_op a -> check_push a = true -> expand_push a = mkOp oPUSH 0 (arg2 (expand_push a)).
Proof.
  intros W C. pose proof (expand_push_op a C) as E. pose proof (expand_push_arg1 a W C) as E1.
  destruct (expand_push a) as [z x y]. cbn [op arg1 arg2] in *. subst. reflexivity.
Qed.

Lemma check_pushes a : wf_op a -> check_push a = true -> pushes a (arg2 (expand_push a)).
Proof.
  intros W C. unfold check_push in C. apply one_of_In in C. cbn [In] in C. unfold pushes, expand_push.
  destruct W as (W0 & W1 & W2 & _).
  destruct C as [E|[E|[E|[]]]]; rewrite <- E; [left|right; left|right; right]; (split; [reflexivity|]).
  - reflexivity.
  - change (oPUSHB =? oPUSHB) with true. cbv iota. cbn [arg2]. apply word16_iff. unfold s8, u8, u16. 
    destruct (arg1 a <? 128) eqn:E1; destruct (arg1 a mod 256 <? 128) eqn:E2; lia.
  - change (oUPUSHB =? oPUSHB) with false. change (oUPUSHB =? oUPUSHB) with true. cbv iota. reflexivity.
Qed.

(** ------------------------------------------------------------------ *)
(** Arithmetic *)
Lemma pot_loop n : forall v p, 0 <= v -> power_of_two_loop n v p = -1 \/
  (p <= power_of_two_loop n v p /\ v = 2 ^ (power_of_two_loop n v p - p)).
Proof.
  induction n as [|n IH]; intros v p Hv; cbn [power_of_two_loop]; [left; reflexivity|].
  destruct (negb (v =? 0) && (Z.land v 1 =? 0)) eqn:E.
  - assert (Hl : Z.land v 1 = v mod 2) by (change 1 with (Z.ones 1); apply Z.land_ones; lia).
    destruct (IH (v / 2) (p + 1) ltac:(lia)) as [H|[H1 H2]]; [left; exact H|right]. split; [lia|].
    set (r := power_of_two_loop n (v / 2) (p + 1)) in *.
    replace (r - p) with (1 + (r - (p + 1))) by lia. rewrite Z.pow_add_r by lia. change (2 ^ 1) with 2. lia.
  - destruct (v =? 1) eqn:E1; [right|left; reflexivity]. split; [lia|]. rewrite Z.sub_diag. cbn. lia.
Qed.

Lemma power_of_two_spec c : word c -> 1 <= power_of_two c -> c = 2 ^ power_of_two c /\ power_of_two c <= 15.
Proof.
  intros W H. unfold word in W. unfold power_of_two in *. destruct (pot_loop 33 c 0 ltac:(lia)) as [E|[E1 E2]]; [lia|].
  rewrite Z.sub_0_r in E2. split; [exact E2|]. set (r := power_of_two_loop 33 c 0) in *.
  destruct (Z_le_gt_dec r 15); [assumption|]. exfalso.
  assert (2 ^ 16 <= 2 ^ r) by (apply Z.pow_le_mono_r; lia). change (2 ^ 16) with 65536 in *. lia.
Qed.

Lemma u16_mul_s16_r x c : u16 (x * s16 c) = u16 (x * c).
Proof.
  destruct (proj1 (u16_eq_iff (s16 c) c) (u16_s16 c)) as [k E]. apply u16_eq_iff. exists (x * k). rewrite E. ring.
Qed.
Lemma u16_mul_s16_l x c : u16 (s16 x * c) = u16 (x * c).
Proof. rewrite Z.mul_comm, u16_mul_s16_r, Z.mul_comm. reflexivity. Qed.

Lemma shift_mul v c t : word c -> 1 <= t <= 15 -> c = 2 ^ t -> shift16 Z.shiftl (s16 v) (s16 (u16 t)) = Some (u16 (v * c)).
Proof.
  intros W Ht E. rewrite s16_u16, (s16_small t) by lia. unfold shift16.
  replace ((0 <=? t) && (t <? 32)) with true by lia. rewrite Z.shiftl_mul_pow2, <- E by lia. f_equal. apply u16_mul_s16_l.
Qed.
Lemma shift_div v c t : word v -> word c -> 1 <= t <= 15 -> c = 2 ^ t -> shift16 Z.shiftr v (s16 (u16 t)) = Some (u16 (v / c)).
Proof.
  intros Wv W Ht E. rewrite s16_u16, (s16_small t) by lia. unfold shift16.
  replace ((0 <=? t) && (t <? 32)) with true by lia. rewrite Z.shiftr_div_pow2, <- E by lia. reflexivity.
Qed.


Lemma flow_inds s v : 0 <= v < 65536 -> flow_op s (mkOp oINDS 0 v) =
  if (0 <=? sp s + s16 v) && (sp s + s16 v <? c_ssz (cf s))
  then Falls (with_pc (with_sp s (u16 (sp s + s16 v))) (u16 (pc s + 3))) else Stops.
Proof.
  intros Hv. unfold flow_op. change (is_jump (mkOp oINDS 0 v)) with false. cbv iota. cbn [op arg2].
  change (oINDS =? oINDS) with true. cbn [andb].
  replace (if v <? 32768 then v else v - 65536) with (s16 v) by (unfold s16, u16; destruct (v mod 65536 <? 32768) eqn:?; destruct (v <? 32768) eqn:?; lia).
  destruct ((0 <=? sp s + s16 v) && (sp s + s16 v <? c_ssz (cf s))); reflexivity.
Qed.

Lemma s16_sum m n : -32768 <= s16 m + s16 n < 32768 -> s16 (u16 (m + n)) = s16 m + s16 n.
Proof.
  intros Hin. rewrite <- (s16_small (s16 m + s16 n)) by exact Hin.
  rewrite <- (s16_u16 (s16 m + s16 n)). f_equal.
  destruct (proj1 (u16_eq_iff (s16 m) m) (u16_s16 m)) as [k1 E1]. destruct (proj1 (u16_eq_iff (s16 n) n) (u16_s16 n)) as [k2 E2].
  apply (u16_congr _ _ (- (k1 + k2))). lia.
Qed.

Lemma refines_inds m n : 0 <= m < 65536 -> 0 <= n < 65536 -> -32768 <= s16 m + s16 n < 32768 ->
  refines [mkOp oINDS 0 m; mkOp oINDS 0 n] [mkOp oINDS 0 (u16 (m + n))].
Proof.
  intros Hm Hn Hin s R Hsp _ _. cbn [flow_list]. rewrite (flow_inds s m Hm).
  destruct ((0 <=? sp s + s16 m) && (sp s + s16 m <? c_ssz (cf s))) eqn:E1; [|exact I].
  rewrite (flow_inds _ n Hn). cbn [sp with_pc with_sp cf].
  destruct R as (R1 & R2 & R3 & R4). rewrite (u16_small (sp s + s16 m)) by lia.
  destruct ((0 <=? sp s + s16 m + s16 n) && (sp s + s16 m + s16 n <? c_ssz (cf s))) eqn:E2; [|exact I].
  rewrite (flow_inds s _ (u16_range _)), (s16_sum m n Hin), Z.add_assoc, E2.
  eexists. split; [reflexivity|]. unfold agree, same_regs. cbn [sp with_pc with_sp cf csp fp lsp fch].
  repeat split; reflexivity.
Qed.

Lemma refines_incs m n : refines [mkOp oINCS 0 m; mkOp oINCS 0 n] [mkOp oINCS 0 (u16 (m + n))].
Proof.
  intros s R Hsp _ _.
  change (matches (sp s / 2 + DEPTH) (Falls (with_pc (with_csp (with_pc (with_csp s (u16 (csp s + s16 m))) (u16 (pc s + 3)))
       (u16 (u16 (csp s + s16 m) + s16 n))) (u16 (u16 (pc s + 3) + 3))))
       (Falls (with_pc (with_csp s (u16 (csp s + s16 (u16 (m + n))))) (u16 (pc s + 3))))).
  eexists. split; [reflexivity|]. unfold agree, same_regs. cbn [sp with_pc with_csp cf csp fp lsp fch].
  repeat split; try reflexivity.
  rewrite u16_add_l. rewrite <- (u16_add_r (csp s) (s16 (u16 (m + n)))), u16_s16, u16_u16, u16_add_r.
  destruct (proj1 (u16_eq_iff (s16 m) m) (u16_s16 m)) as [k1 E1]. destruct (proj1 (u16_eq_iff (s16 n) n) (u16_s16 n)) as [k2 E2].
  apply (u16_congr _ _ (- (k1 + k2))). lia.
Qed.

Lemma u16_word v : word v -> u16 v = v.
Proof. apply u16_small. Qed.
Lemma u16_is_word v : word (u16 v).
Proof. apply u16_range. Qed.
Lemma btrue_word f : word (btrue f).
Proof. unfold word. destruct f; cbn; lia. Qed.
Lemma btrue_u16 f : u16 (pbool f) = btrue f.
Proof. destruct f; reflexivity. Qed.

(** ------------------------------------------------------------------ *)
Section Step.
  Variables (i : nat) (a b : opType).
  Hypothesis Wa : wf_op a.
  Hypothesis Wb : wf_op b.
  Hypothesis Ma : ends_before (op a) = false.
  Hypothesis Mb : ends_before (op b) = false.

  Section Push.
  Hypothesis Ca : check_push a = true.
  Hypothesis Hbad : ~ unary_bad a b.
  Let c := arg2 (expand_push a).
  Let Ea : expand_push a = mkOp oPUSH 0 c := expand_push_eq a Wa Ca.
  Let Wc : word c := c_word a Wa.
  Let Hp : pushes a c := check_pushes a Wa Ca.

  Lemma us_skip : win_ok i [a; b] (u_skip i a).
  Proof.
    unfold u_skip. rewrite Ea. split; [reflexivity|]. split; [constructor; [apply wf_PUSH; exact Wc|constructor]|].
    split; [cbn; lia|]. (apply wclos_refines; [um|]). exact (r_push a Wa Ca 0).
  Qed.
  Lemma us_fold d v : decode_op8 (op b) = Some d -> word v -> (forall k, p8 d (c :: k) = PF (v :: k)) ->
    win_ok i [a; b] (u_fold i a v).
  Proof.
    intros D Hv H. unfold u_fold. rewrite Ea. split; [reflexivity|].
    split; [constructor; [apply wf_PUSH; exact Hv|constructor; [apply wf_nop|constructor]]|].
    split; [cbn; lia|]. (apply wclos_refines; [um|]). exact (r_fold a b Wa Ca d v 0 D Hv H).
  Qed.
  Lemma us_drop d : decode_op8 (op b) = Some d ->
    (forall v k, word v -> p8 d (c :: v :: k) = PStop \/ p8 d (c :: v :: k) = PF (v :: k)) ->
    win_ok i [a; b] (u_drop i).
  Proof.
    intros D H. split; [reflexivity|]. split; [constructor; [apply wf_nop|constructor; [apply wf_nop|constructor]]|].
    split; [cbn; lia|]. (apply wclos_refines; [um|]). exact (r_drop a b Wa Ca d D H).
  Qed.
  Lemma us_to d z d' : decode_op8 (op b) = Some d -> decode_op8 z = Some d' ->
    In z [oINC; oDEC; oNEG; oSLL; oSRL; oSRA; oEQUZ; oNEQZ; oLTZ; oGTEZ; oGTZ; oLTEZ] ->
    (forall v k, word v -> pmatch (p8 d (c :: v :: k)) (p8 d' (v :: k)) /\ forall t l, p8 d (c :: v :: k) <> PJ t l) ->
    win_ok i [a; b] (u_to i b z).
  Proof.
    intros D D' Hz H. split; [reflexivity|].
    assert (Eb : set_op b z = mkOp z 0 0) by (rewrite (wf_8 b d Wb D); reflexivity). rewrite Eb.
    split; [constructor; [apply wf_nop|constructor; [apply wf_op8; cbn in *; tauto|constructor]]|].
    split; [cbn; lia|].
    replace (code [nop; mkOp z 0 0]) with [mkOp z 0 0].
    2:{ cbn [In] in Hz. repeat (destruct Hz as [<-|Hz]; [reflexivity|]). contradiction. }
    (apply wclos_refines; [um|]). exact (r_to a b Wa Ca d (mkOp z 0 0) d' D D' H).
  Qed.
  Lemma us_two d z1 d1 z2 d2 : decode_op8 (op b) = Some d -> decode_op8 z1 = Some d1 -> decode_op8 z2 = Some d2 ->
    In z1 [oINC; oDEC] -> In z2 [oEQUZ; oNEQZ] ->
    (forall v k, word v -> exists w, p8 d1 (v :: k) = PF (w :: k) /\ exists r, p8 d (c :: v :: k) = PF (r :: k) /\ p8 d2 (w :: k) = PF (r :: k)) ->
    win_ok i [a; b] (u_two i a b z1 z2).
  Proof.
    intros D D1 D2 H1 H2 H. unfold u_two. rewrite Ea. split; [reflexivity|].
    assert (Eb : set_op b z2 = mkOp z2 0 0) by (rewrite (wf_8 b d Wb D); reflexivity). rewrite Eb. cbn [arg1].
    split; [constructor; [apply wf_op8; cbn in *; tauto|constructor; [apply wf_op8; cbn in *; tauto|constructor]]|].
    split; [cbn; lia|].
    replace (code [mkOp z1 0 0; mkOp z2 0 0]) with [mkOp z1 0 0; mkOp z2 0 0].
    2:{ cbn [In] in H1, H2. destruct H1 as [<-|[<-|[]]]; destruct H2 as [<-|[<-|[]]]; reflexivity. }
    (apply wclos_refines; [um|]). exact (r_two a b Wa Ca d (mkOp z1 0 0) d1 (mkOp z2 0 0) d2 D D1 D2 H).
  Qed.
  Lemma us_shift d z d' t : decode_op8 (op b) = Some d -> decode_op8 z = Some d' -> In z [oSLL; oSRL] -> 1 <= t <= 15 ->
    (forall v k, word v -> pmatch (p8 d (c :: v :: k)) (p8 d' (u16 t :: v :: k))) ->
    win_ok i [a; b] (Rw i [set_arg2 (expand_push a) (u16 t); set_op b z] [i] i 1).
  Proof.
    intros D D' Hz Ht H. rewrite Ea. split; [reflexivity|].
    assert (Eb : set_op b z = mkOp z 0 0) by (rewrite (wf_8 b d Wb D); reflexivity). rewrite Eb. 
    unfold set_arg2. cbn [op arg1]. assert (Wt : word (u16 t)) by apply u16_range.
    split; [constructor; [apply wf_PUSH; exact Wt|constructor; [apply wf_op8; cbn in *; tauto|constructor]]|].
    split; [cbn; lia|].
    replace (code [mkOp oPUSH 0 (u16 t); mkOp z 0 0]) with [mkOp oPUSH 0 (u16 t); mkOp z 0 0].
    2:{ cbn [In] in Hz. destruct Hz as [<-|[<-|[]]]; reflexivity. }
    (apply wclos_refines; [um|]). exact (r_const a b Wa Ca d (mkOp z 0 0) d' (u16 t) 0 D D' Wt H).
  Qed.
  Lemma us_jump f d : decode_op24 (op b) = Some d -> ~ In (op b) mem_codes -> ~ In (op b) marks ->
    (forall s0 k, p24 s0 d (arg2 b) (arg2 b) k = p_jz f (arg2 b) k) ->
    win_ok i [a; b] (u_jump i b (f (s16 c))).
  Proof.
    intros D N Nb H. pose proof (r_jump a b Wa Ca f d D N H) as R. fold c in R.
    assert (Hl : 0 <= arg2 b < 65536) by apply Wb.
    unfold u_jump. destruct (f (s16 c)).
    - split; [reflexivity|].
      assert (Eb : set_op b oJMP = mkOp oJMP (arg1 b) (arg2 b)) by reflexivity. rewrite Eb. 
      split; [constructor; [apply wf_nop|constructor; [|constructor]]|].
      { rewrite (wf_24 b d Wb D). cbn [arg1 arg2]. apply wf_jump; [cbn; tauto|exact Hl]. }
      split; [cbn; lia|]. (apply wclos_refines; [um|]). exact R.
    - split; [reflexivity|]. split; [constructor; [apply wf_nop|constructor; [apply wf_nop|constructor]]|].
      split; [cbn; lia|]. (apply wclos_refines; [um|]). exact R.
  Qed.

  Ltac bin := intros; cbn [p8]; unfold p_scmp, p_ucmp, p_cmpz; cbn [p_bin p_un].

  Lemma us_cmp d z d' : decode_op8 (op b) = Some d -> decode_op8 z = Some d' -> In z [oEQUZ; oNEQZ; oLTZ; oGTEZ; oGTZ; oLTEZ] ->
    (forall v k, word v -> c = 0 -> p8 d (c :: v :: k) = p8 d' (v :: k)) ->
    (forall v k, exists r, p8 d (c :: v :: k) = PF (r :: k)) ->
    (c = 1 \/ c = 65535 -> In z [oEQUZ; oNEQZ] /\ forall v k, word v -> p8 d (c :: v :: k) = p8 d' (u16 (v - c) :: k)) ->
    win_ok i [a; b] (u_cmp i a b z).
  Proof.
    intros D D' Hz H H0 H1. unfold u_cmp. fold c. destruct (Z.eqb_spec c 0) as [E|E].
    { apply (us_to d z d' D D'); [cbn in *; tauto|]. intros v k Hv. rewrite <- (H v k Hv E). destruct (H0 v k) as [r Er].
      split; [right; split; [reflexivity|congruence]|intros; congruence]. }
    destruct (Z.eqb_spec c 1) as [E1|E1].
    { destruct (H1 (or_introl E1)) as [Hz' He]. apply (us_two d oDEC DEC z d'); try assumption; try reflexivity; [cbn; tauto|].
      intros v k Hv. exists (u16 (v - 1)). split; [reflexivity|]. destruct (H0 v k) as [r Er]. exists r.
      split; [exact Er|]. specialize (He v k Hv). congruence. }
    destruct (Z.eqb_spec (s16 c) (-1)) as [E2|E2]; [|apply us_skip].
    assert (E3 : c = 65535). { unfold word in Wc. destruct (s16_cases c Wc); lia. }
    destruct (H1 (or_intror E3)) as [Hz' He]. apply (us_two d oINC INC z d'); try assumption; try reflexivity; [cbn; tauto|].
    intros v k Hv. exists (u16 (v + 1)). split; [reflexivity|]. destruct (H0 v k) as [r Er]. exists r.
    split; [exact Er|]. specialize (He v k Hv). rewrite E3 in *.
    replace (u16 (v + 1)) with (u16 (v - 65535)); [congruence|]. apply (u16_congr _ _ (-1)). lia.
  Qed.

  Lemma us_ucmp_bad z : In (op b) [oLT; oGTE; oGT; oLTE] -> c = 1 \/ c = 65535 -> In z [oEQUZ; oNEQZ] /\ False.
  Proof. intros Hb Hc. exfalso. apply Hbad. eapply ub_cmp; eassumption. Qed.

  Lemma s16_c_nonneg : In (op b) [oGTZ; oLTEZ; oJGTZ; oJLTEZ] -> s16 c = c.
  Proof.
    intros Hb. unfold word in Wc. destruct (Z_lt_le_dec c 32768) as [H|H]; [apply s16_small; lia|].
    exfalso. apply Hbad. eapply ub_sign; eassumption.
  Qed.

  Lemma us_muldiv d z d' : decode_op8 (op b) = Some d -> decode_op8 z = Some d' -> In z [oSLL; oSRL] ->
    (c = 1 -> forall v k, word v -> p8 d (c :: v :: k) = PStop \/ p8 d (c :: v :: k) = PF (v :: k)) ->
    (forall t v k, 1 <= t <= 15 -> c = 2 ^ t -> word v -> pmatch (p8 d (c :: v :: k)) (p8 d' (u16 t :: v :: k))) ->
    win_ok i [a; b] (u_muldiv i a b z).
  Proof.
    intros D D' Hz H1 H2. unfold u_muldiv. fold c. destruct (Z.eqb_spec c 1) as [E|E].
    { apply (us_drop d D). apply H1. exact E. }
    cbv zeta. destruct (Z.leb_spec 1 (power_of_two c)) as [H|H]; [|apply us_skip].
    destruct (power_of_two_spec c Wc H) as [E2 H15].
    apply (us_shift d z d' (power_of_two c) D D' Hz); [lia|]. intros v k Hv. apply H2; [lia|exact E2|exact Hv].
  Qed.

  Lemma unary_push_ok : win_ok i [a; b] (unary_push i a b).
  Proof.
    unfold unary_push. fold c. destruct (decode_op8 (op b)) as [d|] eqn:D.
    2:{ destruct (decode_op24 (op b)) as [d|] eqn:D4; [|apply us_skip].
        pose proof (dec24_inv _ _ D4) as Eb.
        assert (Hm : In d [JEQUZ; JNEQZ; JLTZ; JGTEZ; JGTZ; JLTEZ] -> ~ In (op b) mem_codes).
        { intros Hd. rewrite Eb. cbn [In] in Hd. repeat (destruct Hd as [<-|Hd]; [cbn; intuition discriminate|]). contradiction. }
        pose proof Wc as Wc'. unfold word in Wc'.
        destruct d; try apply us_skip.
        - rewrite <- (s16_eq_zero c) by exact Wc'. apply (us_jump (fun v => v =? 0) JEQUZ D4); [apply Hm; cbn; tauto|apply unmarked_eqb; rewrite Eb; reflexivity|reflexivity].
        - rewrite <- (s16_eq_zero c) by exact Wc'. apply (us_jump (fun v => negb (v =? 0)) JNEQZ D4); [apply Hm; cbn; tauto|apply unmarked_eqb; rewrite Eb; reflexivity|reflexivity].
        - apply (us_jump (fun v => v <? 0) JLTZ D4); [apply Hm; cbn; tauto|apply unmarked_eqb; rewrite Eb; reflexivity|reflexivity].
        - apply (us_jump (fun v => 0 <=? v) JGTEZ D4); [apply Hm; cbn; tauto|apply unmarked_eqb; rewrite Eb; reflexivity|reflexivity].
        - rewrite <- s16_c_nonneg by (rewrite Eb; cbn; tauto). 
          apply (us_jump (fun v => 0 <? v) JGTZ D4); [apply Hm; cbn; tauto|apply unmarked_eqb; rewrite Eb; reflexivity|reflexivity].
        - rewrite <- s16_c_nonneg by (rewrite Eb; cbn; tauto). 
          apply (us_jump (fun v => v <=? 0) JLTEZ D4); [apply Hm; cbn; tauto|apply unmarked_eqb; rewrite Eb; reflexivity|reflexivity]. }
    pose proof Wc as Wc'. unfold word in Wc'. pose proof (dec8_inv _ _ D) as Eb.
    assert (D4 : decode_op24 (op b) = None).
    { rewrite Eb. destruct d; reflexivity. }
    destruct d; try (rewrite D4; apply us_skip).
    - (* NEG *) apply (us_fold NEG); [exact D|apply u16_is_word|]. bin. do 2 f_equal.
      destruct (proj1 (u16_eq_iff (s16 c) c) (u16_s16 c)) as [k' E]. apply (u16_congr _ _ (- k')). lia.
    - (* ABS *) apply (us_fold ABS); [exact D| |].
      + destruct (s16 c <? 0); [apply u16_is_word|exact Wc].
      + bin. do 2 f_equal. destruct (s16 c <? 0); [reflexivity|apply u16_small; exact Wc'].
    - apply (us_fold INC); [exact D|apply u16_is_word|]. reflexivity.
    - apply (us_fold DEC); [exact D|apply u16_is_word|]. reflexivity.
    - apply (us_fold NOT); [exact D|apply u16_is_word|]. reflexivity.
    - (* ADD *)
      assert (Hs : forall v, u16 (s16 v + s16 c) = u16 (v + c)).
      { intros v. rewrite <- u16_add_l, <- u16_add_r, !u16_s16, u16_add_l, u16_add_r. reflexivity. }
      destruct (Z.eqb_spec c 0) as [E|E].
      { apply (us_drop ADD D). bin. right. rewrite Hs, E, Z.add_0_r, u16_small by assumption. reflexivity. }
      destruct (Z.eqb_spec c 1) as [E1|E1].
      { apply (us_to ADD oINC INC D); [reflexivity|cbn; tauto|]. bin. rewrite Hs, E1. split; [right; split; [reflexivity|discriminate]|discriminate]. }
      destruct (Z.eqb_spec c 65535) as [E2|E2]; [|apply us_skip].
      apply (us_to ADD oDEC DEC D); [reflexivity|cbn; tauto|]. bin. rewrite Hs, E2.
      replace (u16 (v + 65535)) with (u16 (v - 1)) by (symmetry; apply (u16_congr _ _ 1); lia).
      split; [right; split; [reflexivity|discriminate]|discriminate].
    - (* SUB *)
      assert (Hs : forall v, u16 (s16 v - s16 c) = u16 (v - c)).
      { intros v. rewrite <- u16_sub_l, <- u16_sub_r, !u16_s16, u16_sub_l, u16_sub_r. reflexivity. }
      destruct (Z.eqb_spec c 0) as [E|E].
      { apply (us_drop SUB D). bin. right. rewrite Hs, E, Z.sub_0_r, u16_small by assumption. reflexivity. }
      destruct (Z.eqb_spec c 1) as [E1|E1].
      { apply (us_to SUB oDEC DEC D); [reflexivity|cbn; tauto|]. bin. rewrite Hs, E1. split; [right; split; [reflexivity|discriminate]|discriminate]. }
      destruct (Z.eqb_spec c 65535) as [E2|E2]; [|apply us_skip].
      apply (us_to SUB oINC INC D); [reflexivity|cbn; tauto|]. bin. rewrite Hs, E2.
      replace (u16 (v - 65535)) with (u16 (v + 1)) by (symmetry; apply (u16_congr _ _ (-1)); lia).
      split; [right; split; [reflexivity|discriminate]|discriminate].
    - (* MUL *) apply (us_muldiv MUL oSLL SLL D); [reflexivity|cbn; tauto| |].
      + intros E. bin. right. rewrite u16_mul_s16_r, u16_mul_s16_l, E, Z.mul_1_r, u16_small by assumption. reflexivity.
      + bin. rewrite (shift_mul v c t Wc) by assumption. right. split; [|discriminate].
        rewrite u16_mul_s16_r, u16_mul_s16_l, u16_u16. reflexivity.
    - (* DIV *) unfold u_muldiv. fold c. destruct (Z.eqb_spec c 1) as [E|E].
      { apply (us_drop DIV D). bin. right. rewrite E. change (s16 1) with 1. cbn [Z.eqb]. rewrite Z.quot_1_r, u16_s16, u16_small by assumption. reflexivity. }
      cbv zeta. destruct (Z.leb_spec 1 (power_of_two c)) as [H|H]; [|apply us_skip].
      exfalso. destruct (power_of_two_spec c Wc H) as [E2 H15]. apply Hbad. eapply ub_div; [exact Hp|exact Eb|exact H|exact E2].
    - destruct (Z.eqb_spec c 0) as [E|E]; [|apply us_skip]. apply (us_drop SLL D). bin. rewrite E. right.
      change (shift16 Z.shiftl (s16 v) (s16 0)) with (Some (u16 (s16 v))). cbv iota. rewrite u16_s16, u16_u16, u16_small by assumption. reflexivity.
    - destruct (Z.eqb_spec c 0) as [E|E]; [|apply us_skip]. apply (us_drop SRL D). bin. rewrite E. right.
      change (shift16 Z.shiftr v (s16 0)) with (Some (u16 v)). cbv iota. rewrite u16_u16, u16_small by assumption. reflexivity.
    - destruct (Z.eqb_spec c 0) as [E|E]; [|apply us_skip]. apply (us_drop SRA D). bin. rewrite E. right.
      change (shift16 Z.shiftr (s16 v) (s16 0)) with (Some (u16 (s16 v))). cbv iota. rewrite u16_s16, u16_u16, u16_small by assumption. reflexivity.
    - destruct (Z.eqb_spec c 0) as [E|E]; [|apply us_skip]. apply (us_drop OR D). bin. rewrite E, Z.lor_0_r. right.
      rewrite u16_small by assumption. reflexivity.
    - destruct (Z.eqb_spec c 65535) as [E|E]; [|apply us_skip]. apply (us_drop AND D). bin. rewrite E. right.
      change 65535 with (Z.ones 16). rewrite Z.land_ones by lia. rewrite Z.mod_small by assumption. rewrite u16_small by assumption. reflexivity.
    - apply (us_fold EQUZ _ D); [apply btrue_word|]. bin. rewrite btrue_u16, s16_eq_zero by exact Wc'. reflexivity.
    - apply (us_fold NEQZ _ D); [apply btrue_word|]. bin. rewrite btrue_u16, s16_eq_zero by exact Wc'. reflexivity.
    - apply (us_fold LTZ _ D); [apply btrue_word|]. bin. rewrite btrue_u16. reflexivity.
    - apply (us_fold GTEZ _ D); [apply btrue_word|]. bin. rewrite btrue_u16. reflexivity.
    - apply (us_fold GTZ _ D); [apply btrue_word|]. bin. rewrite btrue_u16, s16_c_nonneg by (rewrite Eb; cbn; tauto). reflexivity.
    - apply (us_fold LTEZ _ D); [apply btrue_word|]. bin. rewrite btrue_u16, s16_c_nonneg by (rewrite Eb; cbn; tauto). reflexivity.
    - apply (us_cmp EQU oEQUZ EQUZ D); [reflexivity|cbn; tauto| | |].
      + bin. rewrite H0. change (s16 0) with 0. rewrite Z.eqb_sym. reflexivity.
      + bin. eexists. reflexivity.
      + intros Hc. split; [cbn; tauto|]. bin. do 4 f_equal. rewrite s16_eq_zero by apply u16_range.
        unfold word in *. destruct (Z.eqb_spec (s16 c) (s16 v)) as [E|E].
        * apply s16_inj in E; try assumption. rewrite E, Z.sub_diag. reflexivity.
        * symmetry. apply Z.eqb_neq. intros E2. apply E. f_equal. unfold u16 in E2. lia.
    - apply (us_cmp NEQ oNEQZ NEQZ D); [reflexivity|cbn; tauto| | |].
      + bin. rewrite H0. change (s16 0) with 0. rewrite Z.eqb_sym. reflexivity.
      + bin. eexists. reflexivity.
      + intros Hc. split; [cbn; tauto|]. bin. do 5 f_equal. rewrite s16_eq_zero by apply u16_range.
        unfold word in *. destruct (Z.eqb_spec (s16 c) (s16 v)) as [E|E].
        * apply s16_inj in E; try assumption. rewrite E, Z.sub_diag. reflexivity.
        * symmetry. apply Z.eqb_neq. intros E2. apply E. f_equal. unfold u16 in E2. lia.
    - apply (us_cmp LT oLTZ LTZ D); [reflexivity|cbn; tauto| | |].
      + bin. rewrite H0. change (s16 0) with 0. reflexivity.
      + bin. eexists. reflexivity.
      + intros Hc. exfalso. apply (us_ucmp_bad oEQUZ) in Hc; [tauto|]. rewrite Eb; cbn; tauto.
    - apply (us_cmp GTE oGTEZ GTEZ D); [reflexivity|cbn; tauto| | |].
      + bin. rewrite H0. change (s16 0) with 0. reflexivity.
      + bin. eexists. reflexivity.
      + intros Hc. exfalso. apply (us_ucmp_bad oEQUZ) in Hc; [tauto|]. rewrite Eb; cbn; tauto.
    - apply (us_cmp GT oGTZ GTZ D); [reflexivity|cbn; tauto| | |].
      + bin. rewrite H0. change (s16 0) with 0. reflexivity.
      + bin. eexists. reflexivity.
      + intros Hc. exfalso. apply (us_ucmp_bad oEQUZ) in Hc; [tauto|]. rewrite Eb; cbn; tauto.
    - apply (us_cmp LTE oLTEZ LTEZ D); [reflexivity|cbn; tauto| | |].
      + bin. rewrite H0. change (s16 0) with 0. reflexivity.
      + bin. eexists. reflexivity.
      + intros Hc. exfalso. apply (us_ucmp_bad oEQUZ) in Hc; [tauto|]. rewrite Eb; cbn; tauto.
    - (* UMUL *) apply (us_muldiv UMUL oSLL SLL D); [reflexivity|cbn; tauto| |].
      + intros E. bin. unfold umul16. rewrite E, Z.mul_1_r. destruct (int_ok v); [right|left; reflexivity]. 
        rewrite u16_u16, u16_small by assumption. reflexivity.
      + bin. rewrite (shift_mul v c t Wc) by assumption. unfold umul16. destruct (int_ok (v * c)); [right|left; reflexivity].
        split; [|discriminate]. reflexivity.
    - (* UDIV *) apply (us_muldiv UDIV oSRL SRL D); [reflexivity|cbn; tauto| |].
      + intros E. bin. rewrite E. cbn [Z.eqb]. rewrite Z.div_1_r, u16_small by assumption. right. reflexivity.
      + bin. rewrite (shift_div v c t) by assumption. 
        destruct (c =? 0) eqn:E0; [left; reflexivity|right]. split; [|discriminate]. rewrite u16_u16. reflexivity.
  Qed.
  End Push.

  Lemma stay_ok : win_ok i [a; b] (Rw i [] [] (S i) 0).
  Proof. split; [reflexivity|]. split; [constructor|]. split; [cbn; lia|]. apply wclos_refl. Qed.

  Lemma unary_step_ok : ~ unary_bad a b -> win_ok i [a; b] (unary_step i a b).
  Proof.
    intros Hbad. unfold unary_step. destruct (check_push a) eqn:Ca; [apply unary_push_ok; assumption|].
    destruct ((op a =? oINDS) || (op a =? oINCS)) eqn:E.
    { destruct (Z.eqb_spec (op b) (op a)) as [Eb|Eb]; [|apply stay_ok].
      assert (D : exists d, decode_op24 (op a) = Some d /\ (d = INDS \/ d = INCS)).
      { destruct (Z.eqb_spec (op a) oINDS) as [->|N]; [exists INDS; auto|].
        destruct (Z.eqb_spec (op a) oINCS) as [->|N']; [exists INCS; auto|discriminate]. }
      destruct D as (d & D & Hd). pose proof (dec24_inv _ _ D) as Ea.
      pose proof (wf_24 a d Wa D) as Fa. rewrite <- Eb in D. pose proof (wf_24 b d Wb D) as Fb.
      assert (Ha2 : 0 <= arg2 a < 65536) by apply Wa. assert (Hb2 : 0 <= arg2 b < 65536) by apply Wb.
      set (m := arg2 a) in *. set (n := arg2 b) in *. rewrite Eb in Fb.
      assert (Es : set_arg2 a (u16 (m + n)) = mkOp (op a) 0 (u16 (m + n))).
      { unfold set_arg2. f_equal. rewrite Fa. reflexivity. }
      rewrite Es. split; [reflexivity|]. pose proof (u16_range (m + n)) as Hr.
      split; [constructor; [|constructor; [apply wf_nop|constructor]]|].
      { destruct Hd as [-> | ->]; rewrite Ea; cbn [dec24_code]; wfop. }
      split; [cbn; lia|].
      replace (code [mkOp (op a) 0 (u16 (m + n)); nop]) with [mkOp (op a) 0 (u16 (m + n))]
        by (rewrite Ea; destruct Hd as [-> | ->]; reflexivity).
      cbn [length firstn].
      replace [a; b] with [mkOp (op a) 0 m; mkOp (op a) 0 n] by congruence.
      clear Es Fa Fb. rewrite Ea.
      destruct Hd as [-> | ->]; cbn [dec24_code]; (apply wclos_refines; [um|]).
      - apply refines_inds; [exact Ha2|exact Hb2|].
        destruct (Z_le_gt_dec (-32768) (s16 m + s16 n)); destruct (Z_lt_le_dec (s16 m + s16 n) 32768); try lia;
          exfalso; apply Hbad; eapply (ub_inds a b (s16 m) (s16 n)); try (rewrite ?Eb, ?Ea; reflexivity);
          try apply signed16_s16; lia.
      - apply refines_incs. }
    assert (IDp : forall d d', decode_op8 (op a) = Some d -> decode_op8 (op b) = Some d' ->
      (forall v k, word v -> exists w, p8 d (v :: k) = PF (w :: k) /\ p8 d' (w :: k) = PF (v :: k)) ->
      win_ok i [a; b] (Rw i [nop; nop] [] i 1)).
    { intros d d' D D' H. split; [reflexivity|]. split; [constructor; [apply wf_nop|constructor; [apply wf_nop|constructor]]|].
      split; [cbn; lia|]. cbn [length firstn]. change (code [nop; nop]) with (@nil opType). (apply wclos_refines; [um|]). apply rule_pure.
      { intros o Ho. cbn [app In] in Ho. destruct Ho as [<-|[<-|[]]]; eapply dec8_not_mem; eassumption. }
      intros. cbn [prun]. rewrite (pexec_8 s0 a _ d D). destruct (H v0 [v1; v2; v3] H0) as (w & E1 & E2). rewrite E1.
      rewrite (pexec_8 s0 b _ d' D'), E2. right. split; [reflexivity|discriminate]. }
    destruct (Z.eqb_spec (op a) oINC) as [Ea|Ea].
    { destruct (Z.eqb_spec (op b) oDEC) as [Eb|Eb]; [|apply stay_ok].
      apply (IDp INC DEC); [rewrite Ea; reflexivity|rewrite Eb; reflexivity|].
      intros v k Hv. exists (u16 (v + 1)). split; [reflexivity|]. cbn [p8 p_un]. rewrite u16_sub_l.
      replace (v + 1 - 1) with v by lia. rewrite u16_small by exact Hv. reflexivity. }
    destruct (Z.eqb_spec (op a) oDEC) as [Ea'|Ea']; [|apply stay_ok].
    destruct (Z.eqb_spec (op b) oINC) as [Eb|Eb]; [|apply stay_ok].
    apply (IDp DEC INC); [rewrite Ea'; reflexivity|rewrite Eb; reflexivity|].
    intros v k Hv. exists (u16 (v - 1)). split; [reflexivity|]. cbn [p8 p_un]. rewrite u16_add_l.
    replace (v - 1 + 1) with v by lia. rewrite u16_small by exact Hv. reflexivity.
  Qed.
End Step.

Lemma skipn_adjacent (v : list opType) i a b q : skipn i v = a :: b :: q -> adjacent v a b.
Proof. intros E. exists (firstn i v), q. rewrite <- E. symmetry. apply firstn_skipn. Qed.

Lemma unary_body_ok v i : Forall wf_op v -> Forall inside v -> (forall a b, adjacent v a b -> ~ unary_bad a b) ->
  forall r, unary_body v i = Some r -> rout_ok v r.
Proof.
  intros W M Hb r E. unfold unary_body in E. destruct (skipn i v) as [|a [|b q]] eqn:Es; try discriminate. injection E as <-.
  assert (Wv : Forall wf_op (a :: b :: q)). { rewrite <- Es. rewrite <- (firstn_skipn i v) in W. apply Forall_app in W. apply W. }
  inversion Wv as [|? ? Wa Wv']; subst. inversion Wv' as [|? ? Wb _]; subst.
  apply (win_rout i [a; b]); [exists q; exact Es|discriminate|].
  pose proof (skipn_Forall _ _ _ _ M Es) as Mv. inversion Mv as [|? ? Ma Mv']; subst. inversion Mv' as [|? ? Mb _]; subst.
  apply unary_step_ok; try assumption.
  apply Hb. eapply skipn_adjacent; exact Es.
Qed.

Theorem unary_table t i : Forall wf_op t -> (forall a b, adjacent (visible t) a b -> ~ unary_bad a b) ->
  table_step unary_body t i <> Broken /\
  forall t' nx ch, table_step unary_body t i = Next t' nx ch -> preserved t t' /\ Forall wf_op t'.
Proof. intros W H. apply table_step_ok; [exact W|]. apply unary_body_ok; [apply visible_wf; exact W|apply visible_inside|exact H]. Qed.
