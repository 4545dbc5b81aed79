(** The pass popt_LongBinaryOptimize *)

From Coq Require Import ZArith Bool List Lia ZifyBool.
From Verif Require Import Words State Opcodes SetModel LongModel Machine WordLemmas StateLemmas VmSpec VmProofs MemProofs
  EncodeSpec LongSpec LongProofs OptSpec OptStack OptPure OptStep OptFine OptUnary OptTable OptExcept OptUnaryStep OptBinary
  OptMemStep PoptModel PoptLongModel OptLong.
Import ListNotations.
Open Scope Z_scope.
Ltac Zify.zify_post_hook ::= Z.div_mod_to_equations.

Lemma fits_ok x : int_ok x = false -> ~ fits32 x.
Proof. unfold int_ok, fits32. lia. Qed.

Section Four.
  Variables (i : nat) (a0 a1 b0 b1 o : opType).
  Hypothesis Wa0 : wf_op a0. Hypothesis Wa1 : wf_op a1.
  Hypothesis Wb0 : wf_op b0. Hypothesis Wb1 : wf_op b1. Hypothesis Wo : wf_op o.
  Hypothesis Ca0 : check_push a0 = true. Hypothesis Ca1 : check_push a1 = true.
  Hypothesis Cb0 : check_push b0 = true. Hypothesis Cb1 : check_push b1 = true.
  Hypothesis Eo : op o = oLONGOP8.
  Let l := arg2 (expand_push a0).
  Let h := arg2 (expand_push a1).
  Let l' := arg2 (expand_push b0).
  Let h' := arg2 (expand_push b1).
  Let wk := mk32 l h.
  Let wj := mk32 l' h'.

  Lemma four_rule c y : decode_long8 (arg1 o) = Some c -> (forall q, In q y -> ~ In (op q) mem_codes) ->
    (forall s0 v0 v1 v2 v3, word v0 -> word v1 -> word v2 -> word v3 ->
       pmatch (plong c (h' :: l' :: h :: l :: [v0; v1; v2; v3])) (prun s0 y [v0; v1; v2; v3])) ->
    refines [a0; a1; b0; b1; o] y.
  Proof.
    intros D Hy H. apply rule_pure.
    { intros q Hq. apply in_app_or in Hq. destruct Hq as [Hq|Hq]; [|apply Hy, Hq]. revert q Hq. mems. }
    intros. cbn [prun]. rewrite (pexec_push s0 a0 _ Wa0 Ca0). cbn [p_push length Nat.leb].
    rewrite (pexec_push s0 a1 _ Wa1 Ca1). cbn [p_push length Nat.leb].
    rewrite (pexec_push s0 b0 _ Wb0 Cb0). cbn [p_push length Nat.leb].
    rewrite (pexec_push s0 b1 _ Wb1 Cb1). cbn [p_push length Nat.leb]. rewrite (pexec_long s0 o _ c Eo D).
    fold l h l' h'. destruct (H s0 v0 v1 v2 v3 H0 H1 H2 H3) as [E|[E N]]; [left; rewrite E; reflexivity|].
    right. rewrite <- E. destruct (plong c _) eqn:Ep; try (split; [reflexivity|assumption || discriminate]).
  Qed.
  Lemma four_stop y : decode_long8 (arg1 o) = None -> (forall q, In q y -> ~ In (op q) mem_codes) -> refines [a0; a1; b0; b1; o] y.
  Proof.
    intros D Hy. apply rule_pure.
    { intros q Hq. apply in_app_or in Hq. destruct Hq as [Hq|Hq]; [|apply Hy, Hq]. revert q Hq. mems. }
    intros. cbn [prun]. rewrite (pexec_push s0 a0 _ Wa0 Ca0). cbn [p_push length Nat.leb].
    rewrite (pexec_push s0 a1 _ Wa1 Ca1). cbn [p_push length Nat.leb].
    rewrite (pexec_push s0 b0 _ Wb0 Cb0). cbn [p_push length Nat.leb].
    rewrite (pexec_push s0 b1 _ Wb1 Cb1). cbn [p_push length Nat.leb]. left.
    unfold pexec. rewrite Eo. cbn. rewrite D. reflexivity.
  Qed.

  Notation win r := (win_ok i [a0; a1; b0; b1; o] r).
  Definition ok4 (r : lres) := match r with Cont r => win r | Brk r => r = Rw i [] [] (i + 4)%nat 0 end.

  Lemma Wk : word32_ wk.
  Proof. apply mk32_range; apply c_word; assumption. Qed.
  Lemma Wj : word32_ wj.
  Proof. apply mk32_range; apply c_word; assumption. Qed.

  Lemma ok4_fold v : v <> None ->
    (exists c, decode_long8 (arg1 o) = Some c /\ forall k, plong c (h' :: l' :: h :: l :: k) = match v with Some v => p_long v k | None => PStop end)
    \/ decode_long8 (arg1 o) = None ->
    ok4 (lb_fold i a0 a1 v).
  Proof.
    intros N H. destruct v as [v|]; [|congruence]. unfold lb_fold, ok4. rewrite (expand_push_eq a0 Wa0 Ca0), (expand_push_eq a1 Wa1 Ca1).
    change (set_arg2 (mkOp oPUSH 0 ?a) ?b) with (mkOp oPUSH 0 b).
    split; [reflexivity|]. split.
    { constructor; [apply wf_PUSH, lo_word|constructor; [apply wf_PUSH, hi_word|repeat (constructor; [apply wf_nop|]); constructor]]. }
    split; [cbn; lia|]. cbn [length firstn]. change (code _) with [mkOp oPUSH 0 (lo16 v); mkOp oPUSH 0 (hi16 v)]. (apply wclos_refines; [um|]).
    destruct H as [(c & D & H)|D]; [|apply four_stop; [exact D|mems]].
    apply (four_rule c); [exact D|mems|].
    intros. rewrite H. rewrite (plong_id 0) by (cbn; lia). cbn [prun]. rewrite pexec_PUSH by apply lo_word. cbn [p_push length Nat.leb].
    rewrite pexec_PUSH by apply hi_word. right. split; [reflexivity|discriminate].
  Qed.

  Lemma btrue_word b : word (btrue b).
  Proof. destruct b; unfold btrue, word; lia. Qed.

  Lemma ok4_cmp c b : decode_long8 (arg1 o) = Some c -> 
    (forall k, plong c (h' :: l' :: h :: l :: k) = PF (btrue b :: k)) -> ok4 (lb_cmp i b).
  Proof.
    intros D H. unfold lb_cmp, ok4. set (x := mkOp oPUSH 0 (btrue b)). assert (Wx : wf_op x) by apply wf_PUSH, btrue_word.
    split; [reflexivity|]. split.
    { repeat (constructor; [apply wf_nop|]). constructor; [apply optimize_push_wf, Wx|constructor]. }
    split; [cbn; lia|]. cbn [length firstn]. rewrite !code_cons. change (live nop) with false. cbv iota.
    rewrite optimize_push_live by reflexivity. change (code []) with (@nil opType).
    eapply wclos_trans; [|apply optimize_push_wclos; exact Wx]. (apply wclos_refines; [um|]). apply (four_rule c); [exact D|mems|].
    intros. rewrite H. cbn [prun]. unfold x. rewrite pexec_PUSH by apply btrue_word. right. split; [reflexivity|discriminate].
  Qed.

  Lemma consts : long_const a0 a1 wk /\ long_const b0 b1 wj.
  Proof. split; [exists l, h|exists l', h']; (split; [apply check_pushes; assumption|]; split; [apply check_pushes; assumption|reflexivity]). Qed.

  Lemma s32_zero w : word32_ w -> s32 w = 0 -> w = 0.
  Proof. intros H. rewrite s32_cases by exact H. unfold word32_ in H. destruct (w <? _) eqn:?; lia. Qed.

  Lemma four_ok : ~ long_binary_bad a0 a1 b0 b1 o -> ok4 (long_binary_four i a0 a1 b0 b1 o).
  Proof.
    intros Hb. unfold long_binary_four. change (mk32 (arg2 (expand_push a0)) (arg2 (expand_push a1))) with wk.
    change (mk32 (arg2 (expand_push b0)) (arg2 (expand_push b1))) with wj. destruct consts as [K J].
    pose proof Wk as Hk. pose proof Wj as Hj.
    assert (Zj : In (arg1 o) [0x49; 0x4a; 0x63; oUDIV] -> wj <> 0).
    { intros Ho E. apply Hb. eapply lbb_zero; [exact K|rewrite <- E; exact J|exact Eo|exact Ho]. }
    assert (Zmin : In (arg1 o) [0x49; 0x4a] -> int_ok (Z.quot (s32 wk) (s32 wj)) = true).
    { intros Ho. destruct (int_ok _) eqn:E; [reflexivity|]. exfalso.
      assert (Nj : s32 wj <> 0). { intros Q. apply Zj; [cbn [In] in *; tauto|]. apply s32_zero; assumption. }
      assert (Q : wk = 2147483648 /\ wj = 4294967295).
      { clear - Hk Hj E Nj. rewrite s32_cases in * by assumption. rewrite s32_cases in * by assumption. unfold word32_ in *.
        set (x := if wk <? 2147483648 then wk else wk - 4294967296) in *. set (y := if wj <? 2147483648 then wj else wj - 4294967296) in *.
        assert (Rx : -2147483648 <= x <= 2147483647) by (unfold x; destruct (wk <? _) eqn:?; lia).
        assert (Ry : -2147483648 <= y <= 2147483647) by (unfold y; destruct (wj <? _) eqn:?; lia).
        assert (P : x = -2147483648 /\ y = -1).
        { assert (Z.abs (Z.quot x y) <= Z.abs x). { rewrite <- Z.quot_abs by exact Nj. apply Z.quot_le_upper_bound; [lia|nia]. }
          unfold int_ok in E. assert (Hq : Z.quot x y = 2147483648) by lia.
          assert (x = -2147483648) by lia. split; [assumption|]. pose proof (Z.quot_rem' x y) as Qr. pose proof (Z.rem_bound_abs x y Nj). nia. }
        unfold x, y in P. destruct (wk <? _) eqn:?; destruct (wj <? _) eqn:?; lia. }
      destruct Q as [Q1 Q2]. apply Hb. apply lbb_min; [rewrite <- Q1; exact K|rewrite <- Q2; exact J|exact Eo|exact Ho]. }
    assert (Hs : forall op_ f, In (op_, f) [(0x46, Z.add); (0x47, Z.sub); (0x48, Z.mul)] -> arg1 o = op_ -> sint (f (s32 wk) (s32 wj)) <> None).
    { intros z f Hz Ez. unfold sint. intros NN. destruct (int_ok (f (s32 wk) (s32 wj))) eqn:E; [discriminate NN|]. apply Hb. apply fits_ok in E.
      eapply lbb_add; [exact K|exact J|apply signed32_s32|apply signed32_s32|exact Eo|].
      cbn [In] in Hz. destruct Hz as [Hz|[Hz|[Hz|[]]]]; injection Hz as <- <-; tauto. }
    destruct (Z.eqb_spec (arg1 o) oUDIV) as [E|N].
    { apply ok4_fold; [|right; rewrite E; reflexivity]. unfold udiv32. destruct (Z.eqb_spec wj 0) as [E0|]; [|discriminate].
      exfalso. apply Zj; [rewrite E; cbn; tauto|exact E0]. }
    destruct (decode_long8 (arg1 o)) as [c|] eqn:D; [|reflexivity].
    pose proof (dec_long8_inv _ _ D) as Ec.
    assert (Nb : ~ In (arg1 o) [0x58; 0x59; 0x5a; 0x5b; 0x64; 0x65; 0x66; 0x67]).
    { intros Ho. apply Hb. eapply lbb_cmp; [exact K|exact J|exact Eo|exact Ho]. }
    destruct c; try reflexivity; try (exfalso; apply Nb; rewrite Ec; cbn; tauto).
    - apply ok4_fold; [apply (Hs 0x46 Z.add); [cbn; tauto|exact Ec]|left; exists oDADD; split; [exact D|reflexivity]].
    - apply ok4_fold; [apply (Hs 0x47 Z.sub); [cbn; tauto|exact Ec]|left; exists oDSUB; split; [exact D|reflexivity]].
    - apply ok4_fold; [apply (Hs 0x48 Z.mul); [cbn; tauto|exact Ec]|left; exists oDMUL; split; [exact D|reflexivity]].
    - apply ok4_fold; [|left; exists oDDIV; split; [exact D|reflexivity]]. unfold sdiv32, sint.
      rewrite Zmin by (rewrite Ec; cbn; tauto). destruct (Z.eqb_spec (s32 wj) 0) as [Q|]; [|discriminate].
      exfalso. apply Zj; [rewrite Ec; cbn; tauto|apply s32_zero; assumption].
    - apply ok4_fold; [|left; exists oDMOD; split; [exact D|reflexivity]]. unfold smod32.
      rewrite Zmin by (rewrite Ec; cbn; tauto). destruct (Z.eqb_spec (s32 wj) 0) as [Q|]; [|discriminate].
      exfalso. apply Zj; [rewrite Ec; cbn; tauto|apply s32_zero; assumption].
    - apply ok4_fold; [discriminate|left; exists oDOR; split; [exact D|reflexivity]].
    - apply ok4_fold; [discriminate|left; exists oDAND; split; [exact D|reflexivity]].
    - apply (ok4_cmp oDEQU); [exact D|]. intros k. cbn [plong]. unfold p_lscmp, p_lcmp. fold wk wj.
      f_equal. f_equal. replace (s32 wj =? s32 wk) with (wk =? wj); [destruct (_ =? _); reflexivity|].
      rewrite !s32_cases by assumption. unfold word32_ in *. destruct (wk <? _) eqn:?; destruct (wj <? _) eqn:?; lia.
    - apply (ok4_cmp oDNEQ); [exact D|]. intros k. cbn [plong]. unfold p_lscmp, p_lcmp. fold wk wj.
      f_equal. f_equal. replace (s32 wj =? s32 wk) with (wk =? wj); [destruct (_ =? _); reflexivity|].
      rewrite !s32_cases by assumption. unfold word32_ in *. destruct (wk <? _) eqn:?; destruct (wj <? _) eqn:?; lia.
    - apply ok4_fold; [discriminate|left; exists oDUMUL; split; [exact D|reflexivity]].
    - apply ok4_fold; [|left; exists oDUMOD; split; [exact D|reflexivity]]. unfold umod32. destruct (Z.eqb_spec wj 0) as [Q|]; [|discriminate].
      exfalso. apply Zj; [rewrite Ec; cbn; tauto|exact Q].
  Qed.
End Four.

Section Shift.
  Variables (i : nat) (a0 a1 b o : opType).
  Hypothesis Wa0 : wf_op a0. Hypothesis Wa1 : wf_op a1. Hypothesis Wb : wf_op b. Hypothesis Wo : wf_op o.
  Hypothesis Ca0 : check_push a0 = true. Hypothesis Ca1 : check_push a1 = true. Hypothesis Cb : check_push b = true.
  Hypothesis Eo : op o = oLONGOP8.
  Let l := arg2 (expand_push a0).
  Let h := arg2 (expand_push a1).
  Let n := arg2 (expand_push b).
  Let w := mk32 l h.

  Lemma shift_fold c v : decode_long8 (arg1 o) = Some c ->
    (forall k, plong c (n :: h :: l :: k) = p_long v k) ->
    refines [a0; a1; b; o] [mkOp oPUSH 0 (lo16 v); mkOp oPUSH 0 (hi16 v)].
  Proof.
    intros D H. apply rule_pure; [mems|].
    intros. cbn [prun]. rewrite (pexec_push s0 a0 _ Wa0 Ca0). cbn [p_push length Nat.leb].
    rewrite (pexec_push s0 a1 _ Wa1 Ca1). cbn [p_push length Nat.leb].
    rewrite (pexec_push s0 b _ Wb Cb). cbn [p_push length Nat.leb]. rewrite (pexec_long s0 o _ c Eo D).
    fold l h n. rewrite H, (plong_id 0) by (cbn; lia).
    rewrite pexec_PUSH by apply lo_word. cbn [p_push length Nat.leb].
    rewrite pexec_PUSH by apply hi_word. right. split; [reflexivity|discriminate].
  Qed.
  Lemma shift_keep : refines [a0; a1; b] [mkOp oPUSH 0 l; mkOp oPUSH 0 h; mkOp oPUSH 0 n].
  Proof.
    apply rule_pure; [mems|].
    intros. cbn [prun]. rewrite (pexec_push s0 a0 _ Wa0 Ca0). cbn [p_push length Nat.leb].
    rewrite (pexec_push s0 a1 _ Wa1 Ca1). cbn [p_push length Nat.leb].
    rewrite (pexec_push s0 b _ Wb Cb). cbn [p_push length Nat.leb].
    rewrite pexec_PUSH by (apply c_word; exact Wa0). cbn [p_push length Nat.leb].
    rewrite pexec_PUSH by (apply c_word; exact Wa1). cbn [p_push length Nat.leb].
    rewrite pexec_PUSH by (apply c_word; exact Wb). right. split; [reflexivity|discriminate].
  Qed.

  Lemma shift_ok : ~ long_shift_bad a0 a1 b o -> win_ok i [a0; a1; b; o] (long_shift_rule i a0 a1 b o).
  Proof.
    intros Hb. unfold long_shift_rule. cbv zeta. fold l h n w.
    rewrite (expand_push_eq a0 Wa0 Ca0), (expand_push_eq a1 Wa1 Ca1), (expand_push_eq b Wb Cb). fold l h n.
    assert (Keep : win_ok i [a0; a1; b; o] (Rw i [mkOp oPUSH 0 l; mkOp oPUSH 0 h; mkOp oPUSH 0 n] [(i + 2)%nat; (i + 1)%nat; i] (i + 4) 0)).
    { split; [reflexivity|]. split; [repeat (constructor; [apply wf_PUSH, c_word; assumption|]); constructor|]. split; [cbn; lia|].
      (apply wclos_refines; [um|]). exact shift_keep. }
    assert (Hn : word n) by (apply c_word; exact Wb).
    assert (Hbad : In (arg1 o) [0x4b; 0x4c; 0x4d] -> (0 <=? n) && (n <? 32) = true).
    { intros Ho. destruct (n <? 32) eqn:E; [unfold word in Hn; lia|]. exfalso. apply Hb. eapply (ls_count _ _ _ _ w n); try assumption; [|apply check_pushes; assumption|lia].
      exists l, h. split; [apply check_pushes; assumption|]. split; [apply check_pushes; assumption|reflexivity]. }
    destruct (decode_long8 (arg1 o)) as [c|] eqn:D; [|exact Keep]. pose proof (dec_long8_inv _ _ D) as Ec.
    assert (Fold : forall f a, In (arg1 o) [0x4b; 0x4c; 0x4d] -> (forall k, plong c (n :: h :: l :: k) = match shift32 f a n with Some v => p_long v k | None => PStop end) ->
      win_ok i [a0; a1; b; o] (match shift32 f a n with None => Crash
       | Some v => Rw i [set_arg2 (mkOp oPUSH 0 l) (lo16 v); set_arg2 (mkOp oPUSH 0 h) (hi16 v); nop; nop] [(i + 2)%nat; (i + 1)%nat; i] (i + 4) 1 end)).
    { intros f a Ho Hk. unfold shift32 in *. rewrite (Hbad Ho) in *. set (v := u32 (f a n)) in *.
      split; [reflexivity|]. split.
      { constructor; [apply wf_PUSH, lo_word|constructor; [apply wf_PUSH, hi_word|repeat (constructor; [apply wf_nop|]); constructor]]. }
      split; [cbn; lia|]. cbn [length firstn]. change (code _) with [mkOp oPUSH 0 (lo16 v); mkOp oPUSH 0 (hi16 v)]. (apply wclos_refines; [um|]).
      apply (shift_fold c); assumption. }
    destruct c; try exact Keep; apply Fold; try (rewrite Ec; cbn; tauto); intros k; cbn [plong p_lshift]; fold w; try reflexivity.
    unfold shift32. destruct (_ && _) eqn:En; [|reflexivity]. f_equal. destruct (s32_spec w) as [q E].
    rewrite !Z.shiftl_mul_pow2 by lia. symmetry. apply (u32_congr _ _ (q * 2 ^ n)). rewrite E at 1. ring.
  Qed.
End Shift.

Lemma skipn_plus {A} (l : list A) : forall a b, skipn a (skipn b l) = skipn (b + a) l.
Proof. induction l as [|x l IH]; intros a b; [rewrite !skipn_nil; reflexivity|]. destruct b; [reflexivity|]. cbn [skipn Nat.add]. apply IH. Qed.

Lemma skipn_within (v : list opType) i w q : skipn i v = w ++ q -> within v w.
Proof. intros E. exists (firstn i v), q. rewrite <- E. symmetry. apply firstn_skipn. Qed.

Lemma rewrite_none t a : rewrite_at t a [] [] = t.
Proof. unfold rewrite_at. rewrite put_slots_none. reflexivity. Qed.

Theorem long_binary_table t i : Forall wf_op t ->
  (forall a0 a1 b0 b1 o, within (visible t) [a0; a1; b0; b1; o] -> ~ long_binary_bad a0 a1 b0 b1 o) ->
  (forall a0 a1 b o, within (visible t) [a0; a1; b; o] -> ~ long_shift_bad a0 a1 b o) ->
  step_ok t (long_binary_step t i).
Proof.
  intros W H4 H3. unfold long_binary_step. destruct (Nat.leb_spec (length (slots t)) i) as [G|G]; [split; discriminate|].
  assert (Hi : (i < length (visible t))%nat) by (rewrite <- (slots_visible t 0); exact G).
  pose proof (visible_wf t W) as Wv. unfold long_binary_rule.
  destruct (nth_error (visible t) i) as [o|] eqn:Eo; [|apply step_next; [apply preserved_refl|exact W]].
  destruct (Z.eqb_spec (op o) oLONGOP8) as [Oo|]; [|apply step_next; [apply preserved_refl|exact W]].
  assert (Shift : forall a nx, step_ok t (run_rout t (Rw a [] [] nx 0) (fun t1 _ ch =>
        run_rout t1 (long_shift_body (visible t1) i) (fun t2 nx c => Next t2 nx (ch + c))))).
  { intros a nx. cbn [run_rout]. rewrite rewrite_none. apply run_rout_ok; [exact W| |intros; apply step_next; [apply preserved_refl|assumption]].
    unfold long_shift_body. destruct (skipn (i - 3) (visible t)) as [|a0 [|a1 [|b [|o' q]]]] eqn:Es; try (apply rout_none; lia).
    destruct (_ && _ && _ && _) eqn:C; [|apply rout_none; lia].
    rewrite !andb_true_iff in C. destruct C as [[[G3 C0] C1] C2]. apply Nat.leb_le in G3.
    pose proof (Forall_skipn _ _ _ _ Wv Es) as F. inversion_clear F as [|? ? F1 F']. inversion_clear F' as [|? ? F2 F'']. inversion_clear F'' as [|? ? F3 F4]. inversion_clear F4 as [|? ? F5 _].
    assert (o' = o). {       assert (Q3 : skipn 3 (skipn (i - 3) (visible t)) = skipn i (visible t)).
      { rewrite skipn_plus. f_equal. lia. }
      rewrite Es in Q3. cbn [skipn] in Q3. rewrite (nth_skipn _ _ _ Eo) in Q3. congruence. }
    subst o'. apply (win_rout (i - 3) [a0; a1; b; o]); [exists q; exact Es|discriminate|]. apply shift_ok; try assumption.
    apply H3. eapply skipn_within with (q := q). exact Es. }
  destruct (skipn (i - 4) (visible t)) as [|a0 [|a1 [|b0 [|b1 q]]]] eqn:Es; try apply Shift.
  destruct (_ && _ && _ && _ && _) eqn:C; [|apply Shift].
  rewrite !andb_true_iff in C. destruct C as [[[[G4 C0] C1] C2] C3]. apply Nat.leb_le in G4.
  pose proof (Forall_skipn _ _ _ _ Wv Es) as F. inversion_clear F as [|? ? F1 F']. inversion_clear F' as [|? ? F2 F'']. inversion_clear F'' as [|? ? F3 F4]. inversion_clear F4 as [|? ? F5 _].
  assert (Eq : q = o :: skipn (S i) (visible t)).
  { assert (Q3 : skipn 4 (skipn (i - 4) (visible t)) = skipn i (visible t)) by (rewrite skipn_plus; f_equal; lia).
    rewrite Es in Q3. cbn [skipn] in Q3. rewrite (nth_skipn _ _ _ Eo) in Q3. exact Q3. }
  rewrite Eq in Es. 
  assert (Wo : wf_op o). { rewrite Forall_forall in Wv. apply Wv. eapply nth_error_In. exact Eo. }
  pose proof (four_ok (i - 4) a0 a1 b0 b1 o F1 F2 F3 F5 C0 C1 C2 C3 Oo (H4 _ _ _ _ _ (skipn_within _ _ [a0; a1; b0; b1; o] (skipn (S i) (visible t)) Es))) as R.
  destruct (long_binary_four _ _ _ _ _ _) as [r|r].
  - apply run_rout_ok; [exact W| |intros; apply step_next; [apply preserved_refl|assumption]].
    apply (win_rout (i - 4) [a0; a1; b0; b1; o]); [eexists; exact Es|discriminate|exact R].
  - cbn [ok4] in R. rewrite R. apply Shift.
Qed.
