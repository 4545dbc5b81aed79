(** Loads are not disturbed by the operands on the stack; symbolic execution of the
    instructions the optimizer deals with. *)

From Coq Require Import ZArith Bool List Lia ZifyBool.
From Verif Require Import Words State Opcodes SetModel LongModel Machine WordLemmas StateLemmas VmSpec VmProofs MemProofs
  EncodeSpec OptSpec OptStack OptPure OptStep PoptModel.
Import ListNotations.
Open Scope Z_scope.
Ltac Zify.zify_post_hook ::= Z.div_mod_to_equations.

Lemma follow_same s s' n : forall f,
  (forall k g, (k < n)%nat -> reaches s f k g -> rd s' (g / 2) = rd s (g / 2)) ->
  follow_links s' n f = follow_links s n f.
Proof.
  induction n as [|n IH]; intros f H; [reflexivity|]. cbn [follow_links].
  rewrite (H 0%nat f); [|lia|constructor].
  destruct (rd s (f / 2)) as [g|] eqn:E; [|reflexivity]. cbn [bindO]. apply IH.
  intros k h Hk R. apply (H (S k) h); [lia|]. econstructor; [exact E|exact R].
Qed.

Lemma get_base_same s s' lvl off : fp s' = fp s ->
  (forall k g, (k < Z.to_nat lvl)%nat -> reaches s (fp s) k g -> rd s' (g / 2) = rd s (g / 2)) ->
  get_base s' lvl off = get_base s lvl off.
Proof. intros E H. unfold get_base. rewrite E. rewrite (follow_same s s' _ _ H). reflexivity. Qed.

Lemma get_base_ea s lvl off a : get_base s lvl (s16 off) = Some a -> frame_ea s lvl off 0 a.
Proof.
  unfold get_base. intros H. destruct (follow_links s (Z.to_nat lvl) (fp s)) as [g|] eqn:E; [|discriminate].
  cbn [bindO] in H. injection H as <-. exists g, (s16 off). split; [apply reaches_follow; exact E|].
  split; [apply signed16_s16|]. apply word16_iff. pose proof (s16_range off).
  destruct (Z.leb_spec 0 (s16 off)); [replace (s16 off >=? 0) with true by lia|replace (s16 off >=? 0) with false by lia];
    unfold FBASE, u16; lia.
Qed.

Lemma rdb_same s s' a : cf s' = cf s -> c_ssz (cf s) mod 2 = 0 -> rd s' (a / 2) = rd s (a / 2) -> rdb s' a = rdb s a.
Proof.
  intros Ec He H. unfold rdb, rd, in_byte, in_word in *. rewrite Ec in *.
  replace ((0 <=? a / 2) && (a / 2 <? c_ssz (cf s) / 2)) with ((0 <=? a) && (a <? c_ssz (cf s))) in H by lia.
  destruct ((0 <=? a) && (a <? c_ssz (cf s))); [|reflexivity]. injection H as H.
  unfold byte_of. f_equal. destruct (a mod 2 =? 0).
  - unfold u8, u16 in *. lia.
  - rewrite H. reflexivity.
Qed.

(** The words below the initial top of the stack are untouched as long as the
    initial operands are. *)
Lemma top_below s0 s ks k0 i : top s0 s0 k0 -> top s0 s (ks ++ k0) -> (length k0 = 4)%nat ->
  ~ (sp s0 / 2 < i <= sp s0 / 2 + DEPTH) -> rd s i = rd s0 i.
Proof.
  intros T0 T L H. destruct (Z_le_gt_dec i (sp s0 / 2 - DEPTH)) as [Hi|Hi].
  { apply (top_rest _ _ _ T). lia. }
  destruct (Z_le_gt_dec i (sp s0 / 2)) as [Hj|Hj].
  2:{ apply (top_rest _ _ _ T). lia. }
  unfold DEPTH in *. set (j := Z.to_nat (sp s0 / 2 - i)).
  destruct (nth_error k0 j) as [v|] eqn:E.
  2:{ apply nth_error_None in E. unfold j in E. lia. }
  pose proof (top_words _ _ _ T0 j v E) as H0.
  assert (E' : nth_error (ks ++ k0) (length ks + j) = Some v).
  { rewrite nth_error_app2 by lia. replace (length ks + j - length ks)%nat with j by lia. exact E. }
  pose proof (top_words _ _ _ T _ v E') as H1.
  pose proof (top_sp _ _ _ T) as Hs. pose proof (top_sp _ _ _ T0) as Hs0. unfold DEPTH in *.
  rewrite app_length in Hs. rewrite L in *.
  replace (sp s / 2 - Z.of_nat (length ks + j)) with i in H1 by (unfold j; lia).
  replace (sp s0 / 2 - Z.of_nat j) with i in H0 by (unfold j; lia). congruence.
Qed.

(** ------------------------------------------------------------------ *)
(** Fineness *)

Definition mem_codes : list Z :=
  [oLD; oLDB; oULDB; oLDX; oLDXB; oULDXB; oLDS; oLDSB; oULDSB; oLAS; oLDSX; oLDSXB; oULDSXB; oLASX].

Lemma fine_plain s0 o k : ~ In (op o) mem_codes -> fine s0 o k.
Proof.
  intros H s T. destruct (top_regs _ _ _ T) as (Ec & _). unfold memval.
  destruct (has8 (op o)).
  - destruct (decode_op32 (op o)) as [c|] eqn:D; [|reflexivity]. pose proof (dec32_inv _ _ D) as Ez.
    destruct c; try reflexivity; exfalso; apply H; rewrite Ez; cbn; tauto.
  - destruct (decode_op24 (op o)) as [c|] eqn:D; [|reflexivity]. pose proof (dec24_inv _ _ D) as Ez.
    destruct c; try reflexivity; try (exfalso; apply H; rewrite Ez; cbn; tauto).
    + unfold load24. rewrite Ec. reflexivity.
    + unfold load24. rewrite Ec. reflexivity.
    + destruct k; [reflexivity|]. unfold index24. rewrite Ec. reflexivity.
Qed.

Definition direct : list Z := [oLD; oLDB; oULDB; oLDS; oLDSB; oULDSB; oLA; oLAS; oLAC].

Lemma fine_direct s0 o ks k0 : start s0 -> In (op o) direct -> 
  (forall i, reads s0 o i -> ~ (sp s0 / 2 < i <= sp s0 / 2 + DEPTH)) ->
  top s0 s0 k0 -> (length k0 = 4)%nat -> fine s0 o (ks ++ k0).
Proof.
  intros S0 Hd Hr T0 L s T. destruct (top_regs _ _ _ T) as (Ec & _ & Ef & _).
  assert (HB : forall i, ~ (sp s0 / 2 < i <= sp s0 / 2 + DEPTH) -> rd s i = rd s0 i)
    by (intros i Hi; apply (top_below s0 s ks k0 i T0 T L Hi)).
  assert (HE : c_ssz (cf s0) mod 2 = 0) by apply S0.
  assert (HL : In (op o) [oLDS; oLDSB; oULDSB; oLAS; oSTS; oSTSB; oLDSM] ->
               get_base s (arg1 o) (s16 (arg2 o)) = get_base s0 (arg1 o) (s16 (arg2 o))).
  { intros Ho. apply get_base_same; [exact Ef|]. intros k g Hk R. apply HB.
    apply Hr. apply reads_links. econstructor; eauto. }
  assert (HA : In (op o) [oLDS; oLDSB; oULDSB] -> forall a, get_base s0 (arg1 o) (s16 (arg2 o)) = Some a -> rd s (a / 2) = rd s0 (a / 2)).
  { intros Ho a Ha. apply HB. apply Hr. eapply reads_frame; [exact Ho|apply get_base_ea; exact Ha|reflexivity]. }
  assert (HG : In (op o) [oLD; oLDB; oULDB] -> rd s (u16 (c_spb (cf s0) + arg2 o) / 2) = rd s0 (u16 (c_spb (cf s0) + arg2 o) / 2)).
  { intros Ho. apply HB. apply Hr. eapply reads_global; [exact Ho| |reflexivity].
    unfold global_ea. apply word16_iff. f_equal. lia. }
  destruct o as [z a b]. cbn [op arg1 arg2] in *. unfold memval. cbn [op arg1 arg2].
  cbn [direct In] in Hd.
  destruct Hd as [<-|[<-|[<-|[<-|[<-|[<-|[<-|[<-|[<-|[]]]]]]]]]];
    match goal with |- context [has8 ?x] => let y := eval vm_compute in (has8 x) in change (has8 x) with y end; cbv iota;
    first [ match goal with |- context [decode_op32 ?x] => let y := eval vm_compute in (decode_op32 x) in change (decode_op32 x) with y end
          | match goal with |- context [decode_op24 ?x] => let y := eval vm_compute in (decode_op24 x) in change (decode_op24 x) with y end ];
    cbv iota.
  - unfold load24, getstack. rewrite Ec. apply HG. cbn; tauto.
  - unfold load24. cbv zeta. rewrite Ec. rewrite (rdb_same s0 s _ Ec HE); [reflexivity|]. apply HG. cbn; tauto.
  - unfold load24. cbv zeta. rewrite Ec. rewrite (rdb_same s0 s _ Ec HE); [reflexivity|]. apply HG. cbn; tauto.
  - unfold load32. rewrite HL by (cbn; tauto). destruct (get_base s0 a (s16 b)) as [q|] eqn:E; [|reflexivity].
    cbn [bindO]. unfold getstack. apply HA; [cbn; tauto|reflexivity].
  - unfold load32. rewrite HL by (cbn; tauto). destruct (get_base s0 a (s16 b)) as [q|] eqn:E; [|reflexivity].
    cbn [bindO]. rewrite (rdb_same s0 s _ Ec HE); [reflexivity|]. apply HA; [cbn; tauto|reflexivity].
  - unfold load32. rewrite HL by (cbn; tauto). destruct (get_base s0 a (s16 b)) as [q|] eqn:E; [|reflexivity].
    cbn [bindO]. rewrite (rdb_same s0 s _ Ec HE); [reflexivity|]. apply HA; [cbn; tauto|reflexivity].
  - unfold load24. rewrite Ec. reflexivity.
  - unfold load32. rewrite HL by (cbn; tauto). reflexivity.
  - unfold load24. rewrite Ec. reflexivity.
Qed.

(** ------------------------------------------------------------------ *)
(** Symbolic execution by decoding *)

Lemma pexec_8 s0 o k c : decode_op8 (op o) = Some c -> pexec s0 o k = p8 c k.
Proof.
  intros D. pose proof (dec8_inv _ _ D) as E. unfold pexec. rewrite D.
  replace (has8 (op o)) with false by (rewrite E; destruct c; reflexivity).
  replace (has16 (op o)) with false by (rewrite E; destruct c; reflexivity). reflexivity.
Qed.
Lemma pexec_24 s0 o k c : decode_op24 (op o) = Some c -> pexec s0 o k = p24 s0 c (arg2 o) (arg2 o) k.
Proof.
  intros D. pose proof (dec24_inv _ _ D) as E. unfold pexec. rewrite D.
  replace (has8 (op o)) with false by (rewrite E; destruct c; reflexivity).
  replace (has16 (op o)) with true by (rewrite E; destruct c; reflexivity). reflexivity.
Qed.
Lemma pexec_32 s0 o k c : decode_op32 (op o) = Some c -> pexec s0 o k = p32 s0 c (arg1 o) (arg2 o) k.
Proof.
  intros D. pose proof (dec32_inv _ _ D) as E. unfold pexec. rewrite D.
  replace (has8 (op o)) with true by (rewrite E; destruct c; reflexivity).
  replace (has16 (op o)) with true by (rewrite E; destruct c; reflexivity). reflexivity.
Qed.
Lemma pexec_long s0 o k c : op o = oLONGOP8 -> decode_long8 (arg1 o) = Some c -> pexec s0 o k = plong c k.
Proof. intros E D. unfold pexec. rewrite E. cbn. rewrite D. reflexivity. Qed.

Lemma pexec_direct s0 o k : In (op o) direct -> pexec s0 o k = p_opt (memval s0 o []) k.
Proof.
  intros Hd. destruct o as [z a b]. cbn [op direct In] in Hd.
  destruct Hd as [<-|[<-|[<-|[<-|[<-|[<-|[<-|[<-|[<-|[]]]]]]]]]]; reflexivity.
Qed.

Lemma one_of_In l o : one_of l o = true <-> In (op o) l.
Proof.
  unfold one_of. rewrite existsb_exists. split.
  - intros (x & Hx & E). apply Z.eqb_eq in E. rewrite E. exact Hx.
  - intros H. exists (op o). split; [exact H|apply Z.eqb_refl].
Qed.

(** Pushes *)
Lemma expand_push_op a : check_push a = true -> op (expand_push a) = oPUSH.
Proof.
  unfold check_push. rewrite one_of_In. cbn [In]. unfold expand_push.
  intros [E|[E|[E|[]]]]; rewrite <- E; cbn; auto.
Qed.
Lemma expand_push_range a : wf_op a -> 0 <= arg2 (expand_push a) < 65536.
Proof.
  intros (H0 & H1 & H2 & _). unfold expand_push. destruct (op a =? oPUSHB); [apply u16_range|].
  destruct (op a =? oUPUSHB); cbn [arg2]; lia.
Qed.
Lemma expand_push_arg1 a : wf_op a -> check_push a = true -> arg1 (expand_push a) = 0.
Proof.
  intros (H0 & H1 & H2 & H3 & H4) C. unfold expand_push.
  destruct (op a =? oPUSHB) eqn:E1; [reflexivity|]. destruct (op a =? oUPUSHB) eqn:E2; [reflexivity|].
  apply H3. unfold check_push in C. rewrite one_of_In in C. cbn [In] in C.
  destruct C as [E|[E|[E|[]]]]; rewrite <- E in *; try discriminate; reflexivity.
Qed.
Lemma pexec_push s0 a k : wf_op a -> check_push a = true -> pexec s0 a k = p_push (arg2 (expand_push a)) k.
Proof.
  intros W C. pose proof W as (H0 & H1 & H2 & _). unfold check_push in C. rewrite one_of_In in C. cbn [In] in C.
  destruct a as [z x y]. cbn [op arg1 arg2] in *. destruct C as [<-|[<-|[<-|[]]]].
  - unfold pexec, expand_push. cbn. rewrite u16_small by lia. reflexivity.
  - unfold pexec, expand_push. cbn. reflexivity.
  - unfold pexec, expand_push. cbn. rewrite u16_small by lia. reflexivity.
Qed.
Lemma pexec_PUSH s0 x v k : 0 <= v < 65536 -> pexec s0 (mkOp oPUSH x v) k = p_push v k.
Proof. intros H. unfold pexec. cbn. rewrite u16_small by lia. reflexivity. Qed.

Lemma push_not_mem a : check_push a = true -> ~ In (op a) mem_codes.
Proof.
  unfold check_push. rewrite one_of_In. cbn [In]. intros [E|[E|[E|[]]]]; rewrite <- E; cbn; intuition discriminate.
Qed.
Lemma dec8_not_mem o c : decode_op8 (op o) = Some c -> ~ In (op o) mem_codes.
Proof. intros D. rewrite (dec8_inv _ _ D). destruct c; cbn; intuition discriminate. Qed.

Lemma clean_app s l : clean s l -> forall o, In o l ->
  forall i, reads s o i -> ~ (sp s / 2 < i <= sp s / 2 + DEPTH).
Proof. intros [H _] o Ho i Hi. eapply H; eassumption. Qed.
