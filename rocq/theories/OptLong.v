(** The passes popt_LongUnaryOptimize and popt_LongBinaryOptimize *)

From Coq Require Import ZArith Bool List Lia ZifyBool.
From Verif Require Import Words State Opcodes SetModel LongModel Machine WordLemmas StateLemmas VmSpec VmProofs MemProofs
  EncodeSpec LongSpec LongProofs OptSpec OptStack OptPure OptStep OptFine OptUnary OptTable OptExcept OptUnaryStep OptBinary
  OptMemStep PoptModel PoptLongModel.
Import ListNotations.
Open Scope Z_scope.
Ltac Zify.zify_post_hook ::= Z.div_mod_to_equations.

Definition word32_ (v : Z) : Prop := 0 <= v < 4294967296.

Lemma mk32_range l h : word l -> word h -> word32_ (mk32 l h).
Proof. unfold word, word32_, mk32. lia. Qed.
Lemma mk32_parts l h : word l -> word h -> lo16 (mk32 l h) = l /\ hi16 (mk32 l h) = h.
Proof. unfold word, mk32, lo16, hi16, u16. lia. Qed.
Lemma lo_word v : word (lo16 v).
Proof. apply u16_range. Qed.
Lemma hi_word v : word (hi16 v).
Proof. apply u16_range. Qed.
Lemma u32_small v : word32_ v -> u32 v = v.
Proof. unfold word32_, u32. intros; apply Z.mod_small; lia. Qed.
Lemma u32_s32 v : u32 (s32 v) = u32 v.
Proof. destruct (s32_spec v) as [k E]. symmetry. apply (u32_congr _ _ k). lia. Qed.
Lemma s32_cases v : word32_ v -> s32 v = if v <? 2147483648 then v else v - 4294967296.
Proof. intros H. unfold s32. rewrite u32_small by exact H. reflexivity. Qed.

Lemma plong_id (r : Z) v k : (length k <= 6)%nat -> p_long v k = PF (hi16 v :: lo16 v :: k).
Proof. intros H. unfold p_long. apply Nat.leb_le in H. rewrite H. reflexivity. Qed.

Ltac mems := 
  let o := fresh in let H := fresh in
  intros o H; cbn [app In] in H; repeat (destruct H as [<-|H]); try contradiction;
  first [ apply push_not_mem; assumption | cbn; intuition discriminate 
        | match goal with E : op ?x = oLONGOP8 |- ~ In (op ?x) _ => rewrite E; cbn; intuition discriminate end ].

Lemma wf_long o : wf_op o -> op o = oLONGOP8 -> o = mkOp oLONGOP8 (arg1 o) 0.
Proof. intros (H0 & H1 & H2 & H3 & H4) E. destruct o as [z x y]. cbn [op arg1 arg2] in *. subst z. rewrite H4 by reflexivity. reflexivity. Qed.
Lemma wf_long8 n : 0 <= n < 256 -> wf_op (mkOp oLONGOP8 n 0).
Proof. intros H. wfop. Qed.

Lemma dec_long8_inv z c : decode_long8 z = Some c -> z = lop c.
Proof.
  unfold decode_long8. intros E.
  repeat match type of E with match ?x with _ => _ end = Some _ => destruct x; try discriminate E end;
  injection E as <-; reflexivity.
Qed.
Lemma dec_long24_8 z d : decode_long24 z = Some d -> decode_long8 z = None.
Proof.
  unfold decode_long24. intros E.
  repeat match type of E with match ?x with _ => _ end = Some _ => destruct x; try discriminate E end;
  reflexivity.
Qed.

(** ------------------------------------------------------------------ *)
Section Two.
  Variables (p0 p1 o : opType).
  Hypothesis W0 : wf_op p0. Hypothesis W1 : wf_op p1. Hypothesis Wo : wf_op o.
  Hypothesis C0 : check_push p0 = true. Hypothesis C1 : check_push p1 = true.
  Hypothesis Eo : op o = oLONGOP8.
  Let l := arg2 (expand_push p0).
  Let h := arg2 (expand_push p1).
  Let w := mk32 l h.

  Lemma two_const : long_const p0 p1 w.
  Proof. exists l, h. split; [apply check_pushes; assumption|]. split; [apply check_pushes; assumption|reflexivity]. Qed.

  Lemma lr_rule c y : decode_long8 (arg1 o) = Some c -> (forall q, In q y -> ~ In (op q) mem_codes) ->
    (forall s0 v0 v1 v2 v3, word v0 -> word v1 -> word v2 -> word v3 ->
       pmatch (plong c (h :: l :: [v0; v1; v2; v3])) (prun s0 y [v0; v1; v2; v3])) ->
    refines [p0; p1; o] y.
  Proof.
    intros D Hy H. apply rule_pure.
    { intros q Hq. apply in_app_or in Hq. destruct Hq as [Hq|Hq]; [|apply Hy, Hq].
      revert q Hq. mems. }
    intros. cbn [prun]. rewrite (pexec_push s0 p0 _ W0 C0). cbn [p_push length Nat.leb].
    rewrite (pexec_push s0 p1 _ W1 C1). cbn [p_push length Nat.leb]. rewrite (pexec_long s0 o _ c Eo D).
    fold l h. destruct (H s0 v0 v1 v2 v3 H0 H1 H2 H3) as [E|[E N]]; [left; rewrite E; reflexivity|].
    right. rewrite <- E. destruct (plong c _) eqn:Ep; try (split; [reflexivity|assumption || discriminate]).
  Qed.

  Lemma lr_stop y : decode_long8 (arg1 o) = None -> (forall q, In q y -> ~ In (op q) mem_codes) -> refines [p0; p1; o] y.
  Proof.
    intros D Hy. apply rule_pure.
    { intros q Hq. apply in_app_or in Hq. destruct Hq as [Hq|Hq]; [|apply Hy, Hq].
      revert q Hq. mems. }
    intros. cbn [prun]. rewrite (pexec_push s0 p0 _ W0 C0). cbn [p_push length Nat.leb].
    rewrite (pexec_push s0 p1 _ W1 C1). cbn [p_push length Nat.leb]. left.
    unfold pexec. rewrite Eo. cbn. rewrite D. reflexivity.
  Qed.

  Lemma lr_push (v : Z) : refines [p0; p1] [mkOp oPUSH 0 l; mkOp oPUSH 0 h].
  Proof.
    apply rule_pure; [mems|]. intros. cbn [prun]. rewrite (pexec_push s0 p0 _ W0 C0). cbn [p_push length Nat.leb].
    rewrite (pexec_push s0 p1 _ W1 C1). cbn [p_push length Nat.leb].
    rewrite pexec_PUSH by (apply c_word; exact W0). cbn [p_push length Nat.leb]. rewrite pexec_PUSH by (apply c_word; exact W1).
    cbn [p_push length Nat.leb]. fold l h. right. split; [reflexivity|discriminate].
  Qed.

  Variable i : nat.
  Let q0 := expand_push p0.
  Let q1 := expand_push p1.
  Let E0 : q0 = mkOp oPUSH 0 l := expand_push_eq p0 W0 C0.
  Let E1 : q1 = mkOp oPUSH 0 h := expand_push_eq p1 W1 C1.
  Let Wl : word l := c_word p0 W0.
  Let Wh : word h := c_word p1 W1.

  Definition lres_ok (r : lres) (P : rout -> Prop) : Prop := match r with Cont r => P r | Brk r => P r end.
  Variable after : option opType.
  Notation ok r := (lres_ok r (win_ok i [p0; p1; o])).

  Lemma ok_keep : ok (l_keep i p0 p1).
  Proof.
    unfold l_keep, lres_ok. fold q0 q1. rewrite E0, E1. split; [reflexivity|].
    split; [constructor; [apply wf_PUSH; exact Wl|constructor; [apply wf_PUSH; exact Wh|constructor]]|].
    split; [cbn; lia|]. (apply wclos_refines; [um|]). exact (lr_push 0).
  Qed.
  Lemma ok_fold c v : decode_long8 (arg1 o) = Some c ->
    (forall k, (length k <= 4)%nat -> plong c (h :: l :: k) = PF (hi16 v :: lo16 v :: k)) -> ok (l_fold i p0 p1 v).
  Proof.
    intros D H. unfold l_fold, lres_ok, two. fold q0 q1. rewrite E0, E1. split; [reflexivity|]. cbn [app].
    split; [constructor; [apply wf_PUSH, lo_word|constructor; [apply wf_PUSH, hi_word|constructor; [apply wf_nop|constructor]]]|].
    split; [cbn; lia|]. cbn [length firstn]. change (code _) with [mkOp oPUSH 0 (lo16 v); mkOp oPUSH 0 (hi16 v)]. (apply wclos_refines; [um|]). apply (lr_rule c); [exact D| |].
    - mems.
    - intros. rewrite H by (cbn; lia). cbn [prun]. rewrite pexec_PUSH by apply lo_word. cbn [p_push length Nat.leb].
      rewrite pexec_PUSH by apply hi_word. right. split; [reflexivity|discriminate].
  Qed.
  Lemma ok_trio c : decode_long8 (arg1 o) = Some c ->
    (forall v0 v1 k, word v0 -> word v1 -> (length k <= 4)%nat ->
       plong c (h :: l :: v0 :: v1 :: k) = PStop \/ plong c (h :: l :: v0 :: v1 :: k) = PF (v0 :: v1 :: k)) -> ok (l_trio i).
  Proof.
    intros D H. unfold l_trio, lres_ok. split; [reflexivity|].
    split; [repeat (constructor; [apply wf_nop|]); constructor|].
    split; [cbn; lia|]. cbn [length firstn]. change (code _) with (@nil opType). (apply wclos_refines; [um|]). apply (lr_rule c); [exact D|intros q []|].
    intros. cbn [prun]. destruct (H v0 v1 [v2; v3]) as [E|E]; try assumption; [cbn; lia| |]; rewrite E; [left; reflexivity|right; split; [reflexivity|discriminate]].
  Qed.
  Lemma ok_to c z : decode_long8 (arg1 o) = Some c -> In z [oDINC; oDDEC] ->
    (forall v0 v1 k, word v0 -> word v1 -> (length k <= 4)%nat -> pmatch (plong c (h :: l :: v0 :: v1 :: k)) (plong z (v0 :: v1 :: k))) -> ok (l_to i o z).
  Proof.
    intros D Hz H. unfold l_to, lres_ok. assert (Es : set_arg1 o (lop z) = lop8 z) by (rewrite (wf_long o Wo Eo); reflexivity).
    rewrite Es. split; [reflexivity|].
    split; [constructor; [apply wf_nop|constructor; [apply wf_nop|constructor; [|constructor]]]|].
    { apply wf_long8. cbn [In] in Hz. destruct Hz as [<-|[<-|[]]]; cbn; lia. }
    split; [cbn; lia|]. cbn [length firstn]. change (code _) with [lop8 z]. (apply wclos_refines; [um|]). apply (lr_rule c); [exact D|mems|].
    intros. cbn [prun]. rewrite (pexec_long s0 (lop8 z) _ z eq_refl) by (cbn [In] in Hz; destruct Hz as [<-|[<-|[]]]; reflexivity).
    destruct (H v0 v1 [v2; v3]) as [E|[E N]]; try assumption; [cbn; lia|left; exact E|]. rewrite <- E. right.
    destruct (plong c _); split; try reflexivity; try assumption; discriminate.
  Qed.

  Ltac lu := intros; cbn [plong p_lbin p_lun]; unfold sdiv32, smod32, sint.
  Lemma Ww : word32_ w.
  Proof. apply mk32_range; assumption. Qed.
  Lemma op_long_back v0 v1 k : word v0 -> word v1 -> (length k <= 6)%nat -> p_long (mk32 v1 v0) k = PF (v0 :: v1 :: k).
  Proof.
    intros H0 H1 Hk. rewrite (plong_id 0) by exact Hk. destruct (mk32_parts v1 v0 H1 H0) as [A B]. rewrite A, B. reflexivity.
  Qed.
  Lemma back_eq v v0 v1 k : word v0 -> word v1 -> (length k <= 6)%nat -> v = mk32 v1 v0 -> p_long v k = PF (v0 :: v1 :: k).
  Proof. intros H0 H1 Hk ->. apply op_long_back; assumption. Qed.

  Lemma ok_neg c : decode_long8 (arg1 o) = Some c -> In c [oDNEG; oDABS] -> (c = oDABS -> s32 w < 0) -> ~ long_unary_bad p0 p1 o ->
    ok (l_neg i p0 p1).
  Proof.
    intros D Hc Ha Hb. unfold l_neg. fold q0 q1. change (arg2 q0) with l. change (arg2 q1) with h. fold w.
    pose proof (dec_long8_inv _ _ D) as Ec.
    destruct (int_ok (- s32 w)) eqn:E.
    - apply (ok_fold c); [exact D|]. intros k Hk. cbn [In] in Hc. destruct Hc as [<-|[<-|[]]]; cbn [plong p_lun]; fold w.
      + unfold sint. rewrite E. apply (plong_id 0). lia.
      + replace (s32 w <? 0) with true by (specialize (Ha eq_refl); lia). unfold sint. rewrite E. apply (plong_id 0). lia.
    - exfalso. apply Hb. apply lu_min; [|exact Eo|rewrite Ec; cbn [In] in Hc; destruct Hc as [<-|[<-|[]]]; cbn; tauto].
      assert (w = 2147483648) as <-; [|apply two_const]. pose proof Ww as Hw. unfold word32_ in Hw. unfold int_ok in E. 
      rewrite s32_cases in E by exact Hw. destruct (w <? 2147483648) eqn:?; lia.
  Qed.
  Lemma ok_cmp c z : decode_long8 (arg1 o) = Some c -> In (c, z) [(oDEQU, oDEQUZ); (oDNEQ, oDNEQZ); (oDLT, oDLTZ); (oDGTE, oDGTEZ); (oDGT, oDGTZ); (oDLTE, oDLTEZ)] ->
    ~ long_unary_bad p0 p1 o -> ok (l_cmp i p0 p1 o z).
  Proof.
    intros D Hc Hb. unfold l_cmp. fold q0 q1. change (arg2 q0) with l. change (arg2 q1) with h. fold w.
    pose proof (dec_long8_inv _ _ D) as Ec. pose proof Ww as Hw. pose proof (s32_cases w Hw) as Es. unfold word32_ in Hw.
    assert (Er : 0x56 <= arg1 o <= 0x5b) by (rewrite Ec; cbn [In] in Hc; intuition (match goal with E : (_, _) = (_, _) |- _ => injection E as <- <- end; cbn; lia)).
    destruct (Z.eqb_spec (s32 w) 0) as [E|N0].
    { exfalso. apply Hb. apply lu_cmp; [|exact Eo|exact Er]. assert (w = 0) as <-; [|apply two_const]. destruct (w <? 2147483648) eqn:?; lia. }
    assert (Hord : w = 1 \/ w = 4294967295 -> (c, z) = (oDEQU, oDEQUZ) \/ (c, z) = (oDNEQ, oDNEQZ)).
    { intros H1. cbn [In] in Hc. destruct Hc as [Hc|[Hc|Hc]]; [left; symmetry; exact Hc|right; symmetry; exact Hc|].
      exfalso. apply Hb. eapply lu_ord; [apply two_const|exact H1|exact Eo|].
      rewrite Ec. intuition (match goal with E : (_, _) = (_, _) |- _ => injection E as <- <- end; cbn; lia). }
    assert (Main : forall a1 d, In (a1, d) [(oDDEC, 1); (oDINC, -1)] -> s32 w = d -> win_ok i [p0; p1; o] (Rw i [nop; lop8 a1; set_arg1 o (lop z)] [] (S (S i)) 1)).
    { intros a1 d Ha Ed. assert (Hw1 : w = 1 \/ w = 4294967295).
      { cbn [In] in Ha. destruct Ha as [Ha|[Ha|[]]]; injection Ha as <- <-; [left|right]; destruct (w <? 2147483648) eqn:?; lia. }
      specialize (Hord Hw1). assert (Ess : set_arg1 o (lop z) = lop8 z) by (rewrite (wf_long o Wo Eo); reflexivity). rewrite Ess.
      split; [reflexivity|]. split.
      { constructor; [apply wf_nop|constructor; [|constructor; [|constructor]]]; apply wf_long8.
        - cbn [In] in Ha. destruct Ha as [Ha|[Ha|[]]]; injection Ha as <- <-; cbn; lia.
        - destruct Hord as [Hz|Hz]; injection Hz as -> ->; cbn; lia. }
      split; [cbn; lia|]. cbn [length firstn]. change (code _) with [lop8 a1; lop8 z]. (apply wclos_refines; [um|]). apply (lr_rule c); [exact D|mems|].
      intros. cbn [prun]. rewrite (pexec_long s0 (lop8 a1) _ a1 eq_refl) by (cbn [In] in Ha; destruct Ha as [Ha|[Ha|[]]]; injection Ha as <- <-; reflexivity).
      assert (Hx : word32_ (mk32 v1 v0)) by (apply mk32_range; assumption). set (xx := mk32 v1 v0) in *. 
      assert (Ea : plong a1 [v0; v1; v2; v3] = PF [hi16 (u32 (xx - d)); lo16 (u32 (xx - d)); v2; v3]).
      { cbn [In] in Ha. destruct Ha as [Ha|[Ha|[]]]; injection Ha as <- <-; cbn [plong p_lun]; fold xx; reflexivity. }
      rewrite Ea. rewrite (pexec_long s0 (lop8 z) _ z eq_refl) by (destruct Hord as [Hz|Hz]; injection Hz as -> ->; reflexivity).
      assert (Em : mk32 (lo16 (u32 (xx - d))) (hi16 (u32 (xx - d))) = u32 (xx - d)).
      { symmetry. apply lo_hi. apply u32_range. }
      assert (Eq : (s32 w =? s32 xx) = (s32 (u32 (xx - d)) =? 0)).
      { rewrite Ed. unfold word32_ in Hx. rewrite (s32_cases xx) by exact Hx. rewrite s32_cases by apply u32_range.
        cbn [In] in Ha. clear - Ha Hx. destruct Ha as [Ha|[Ha|[]]]; injection Ha as <- <-; unfold u32;
          destruct (xx <? 2147483648) eqn:?; match goal with |- context [if ?q then _ else _] => destruct q eqn:? end; lia. }
      destruct Hord as [Hz|Hz]; injection Hz as -> ->; cbn [plong p_lcmpz]; unfold p_lscmp, p_lcmp; fold w xx; rewrite Em;
        rewrite Eq; right; (split; [reflexivity|discriminate]). }
    destruct (Z.eqb_spec (s32 w) 1) as [E|N1]; [apply (Main oDDEC 1); [cbn; tauto|exact E]|].
    destruct (Z.eqb_spec (s32 w) (-1)) as [E|N2]; [apply (Main oDINC (-1)); [cbn; tauto|exact E]|].
    apply ok_keep.
  Qed.

  Lemma power0 : power_of_two 0 = -1.
  Proof. reflexivity. Qed.

  Lemma ok_muldiv c z : decode_long8 (arg1 o) = Some c -> In c [oDMUL; oDUMUL; oDDIV; oDUDIV] -> ok (l_muldiv i p0 p1 o z).
  Proof.
    intros D Hc. unfold l_muldiv. fold q0 q1. change (arg2 q0) with l. change (arg2 q1) with h. fold w.
    pose proof Ww as Hw. pose proof (s32_cases w Hw) as Es. unfold word32_ in Hw.
    destruct (Z.eqb_spec (s32 w) 1) as [E|N].
    - apply (ok_trio c); [exact D|]. intros v0 v1 k H0 H1 Hk. assert (Ew : w = 1) by (destruct (w <? 2147483648) eqn:?; lia).
      assert (Hx : word32_ (mk32 v1 v0)) by (apply mk32_range; assumption).
      cbn [In] in Hc. destruct Hc as [<-|[<-|[<-|[<-|[]]]]]; lu; fold w.
      + rewrite E, Z.mul_1_r. destruct (int_ok _); [|left; reflexivity]. right. apply back_eq; try assumption; [lia|].
        rewrite u32_s32. apply u32_small, Hx.
      + rewrite Ew, Z.mul_1_r. right. apply back_eq; try assumption; [lia|]. apply u32_small, Hx.
      + rewrite E. change (1 =? 0) with false. cbv iota. rewrite Z.quot_1_r. destruct (int_ok _); [|left; reflexivity]. right. apply back_eq; try assumption; [lia|].
        rewrite u32_s32. apply u32_small, Hx.
      + rewrite Ew. change (1 =? 0) with false. cbv iota. rewrite Z.div_1_r. right. apply back_eq; try assumption; [lia|reflexivity].
    - rewrite (wf_long o Wo Eo). cbn [arg2]. rewrite power0. cbn [Z.leb Z.compare]. apply ok_keep.
  Qed.

  Lemma long_unary_two_ok : ~ long_unary_bad p0 p1 o -> ok (long_unary_two i p0 p1 o after).
  Proof.
    intros Hb. unfold long_unary_two. fold q0 q1. change (arg2 q0) with l. change (arg2 q1) with h. fold w.
    pose proof Ww as Hw. pose proof (s32_cases w Hw) as Es. pose proof Hw as Hw'. unfold word32_ in Hw'.
    assert (J : forall b, decode_long8 (arg1 o) = None -> ok (l_jump i o b)).
    { intros b D. unfold l_jump. destruct b.
      - split; [reflexivity|]. split.
        { constructor; [apply wf_nop|constructor; [apply wf_nop|constructor; [|constructor]]]. apply wf_jump; [cbn; tauto|apply Wo]. }
        split; [cbn; lia|]. cbn [length firstn]. change (code _) with [mkOp oJMP 0 (arg2 o)]. (apply wclos_refines; [um|]). apply lr_stop; [exact D|mems].
      - split; [reflexivity|]. split; [repeat (constructor; [apply wf_nop|]); constructor|]. split; [cbn; lia|]. 
        (apply wclos_refines; [um|]). apply lr_stop; [exact D|intros q []]. }
    destruct (decode_long8 (arg1 o)) as [c|] eqn:D.
    2:{ destruct (decode_long24 (arg1 o)) as [d|]; [|apply ok_keep]. destruct d; try apply ok_keep; apply J; reflexivity. }
    pose proof (dec_long8_inv _ _ D) as Ec.
    assert (D24 : decode_long24 (arg1 o) = None).
    { destruct (decode_long24 (arg1 o)) as [d|] eqn:D2; [|reflexivity]. apply dec_long24_8 in D2. congruence. }
    rewrite D24.
    assert (T0 : forall z, s32 w = z -> w = u32 z).
    { intros z <-. rewrite u32_s32. symmetry. apply u32_small, Hw. }
    assert (Back : forall v0 v1 k x, word v0 -> word v1 -> (length k <= 4)%nat -> x = s32 (mk32 v1 v0) ->
       p_lun (fun _ => sint x) (v0 :: v1 :: k) = PStop \/ p_lun (fun _ => sint x) (v0 :: v1 :: k) = PF (v0 :: v1 :: k)).
    { intros v0 v1 k x H0 H1 Hk ->. cbn [p_lun]. unfold sint. destruct (int_ok _); [right|left; reflexivity].
      apply back_eq; try assumption; [lia|]. rewrite u32_s32. apply u32_small. apply mk32_range; assumption. }
    assert (Inc : forall v0 v1 k x d, word v0 -> word v1 -> (length k <= 4)%nat -> x = s32 (mk32 v1 v0) + d ->
       pmatch (match sint x with Some v => p_long v k | None => PStop end) (p_lun (fun a => Some (u32 (a + d))) (v0 :: v1 :: k))).
    { intros v0 v1 k x d H0 H1 Hk ->. unfold sint. destruct (int_ok _); [right|left; reflexivity]. cbn [p_lun].
      rewrite !(plong_id 0) by lia. split; [|discriminate].
      replace (u32 (s32 (mk32 v1 v0) + d)) with (u32 (mk32 v1 v0 + d)); [reflexivity|].
      destruct (s32_spec (mk32 v1 v0)) as [k' E']. apply (u32_congr _ _ k'). lia. }
    assert (IncD : forall v0 v1 k, plong oDDEC (v0 :: v1 :: k) = p_lun (fun a => Some (u32 (a + -1))) (v0 :: v1 :: k)) by reflexivity.
    assert (IncI : forall v0 v1 k, plong oDINC (v0 :: v1 :: k) = p_lun (fun a => Some (u32 (a + 1))) (v0 :: v1 :: k)) by reflexivity.
    destruct c; try apply ok_keep;
      try (exfalso; apply Hb; eapply lu_test; [apply two_const|exact Eo|rewrite Ec; cbn; lia]);
      try (apply (ok_cmp _ _ D); [cbn; tauto|exact Hb]);
      try (eapply ok_muldiv; [exact D|cbn; tauto]);
      try (destruct (Z.eqb_spec (s32 w) 0) as [E|N]; [exfalso; apply Hb; apply lu_shift; [|exact Eo|rewrite Ec; cbn; tauto]|apply ok_keep];
           change 0 with (u32 0); rewrite <- (T0 0 E); apply two_const).
    - (* DNEG *) apply (ok_neg _ D); [cbn; tauto|discriminate|exact Hb].
    - (* DABS *) destruct (s32 w <? 0) eqn:E.
      + apply (ok_neg _ D); [cbn; tauto|lia|exact Hb].
      + fold q0 q1. rewrite E0, E1. split; [reflexivity|].
        split; [constructor; [apply wf_PUSH, Wl|constructor; [apply wf_PUSH, Wh|constructor; [apply wf_nop|constructor]]]|].
        split; [cbn; lia|]. cbn [length firstn]. change (code _) with [mkOp oPUSH 0 l; mkOp oPUSH 0 h].
        (apply wclos_refines; [um|]). apply (lr_rule oDABS); [exact D|mems|]. intros. cbn [plong p_lun]. fold w. rewrite E.
        rewrite (op_long_back h l) by (assumption || (cbn; lia)). cbn [prun]. rewrite pexec_PUSH by exact Wl. cbn [p_push length Nat.leb].
        rewrite pexec_PUSH by exact Wh. right. split; [reflexivity|discriminate].
    - (* DINC *) apply (ok_fold _ _ D). intros k Hk. cbn [plong p_lun]. fold w. apply (plong_id 0). lia.
    - (* DDEC *) apply (ok_fold _ _ D). intros k Hk. cbn [plong p_lun]. fold w. apply (plong_id 0). lia.
    - (* DNOT *) apply (ok_fold _ _ D). intros k Hk. cbn [plong p_lun]. fold w. apply (plong_id 0). lia.
    - (* DADD *) destruct (Z.eqb_spec (s32 w) 0) as [E|N0].
      { apply (ok_trio _ D). intros v0 v1 k H0 H1 Hk. cbn [plong p_lbin]. fold w. apply (Back v0 v1 k); try assumption. rewrite E. lia. }
      destruct (Z.eqb_spec (s32 w) 1) as [E|N1].
      { apply (ok_to _ _ D); [cbn; tauto|]. intros v0 v1 k H0 H1 Hk. cbn [plong p_lbin]. fold w. apply Inc; try assumption. rewrite E. reflexivity. }
      destruct (Z.eqb_spec (s32 w) (-1)) as [E|N2]; [|apply ok_keep].
      apply (ok_to _ _ D); [cbn; tauto|]. intros v0 v1 k H0 H1 Hk. rewrite IncD. cbn [plong p_lbin]. fold w. apply Inc; try assumption. rewrite E. reflexivity.
    - (* DSUB *) destruct (Z.eqb_spec (s32 w) 0) as [E|N0].
      { apply (ok_trio _ D). intros v0 v1 k H0 H1 Hk. cbn [plong p_lbin]. fold w. apply (Back v0 v1 k); try assumption. rewrite E. lia. }
      destruct (Z.eqb_spec (s32 w) 1) as [E|N1].
      { apply (ok_to _ _ D); [cbn; tauto|]. intros v0 v1 k H0 H1 Hk. rewrite IncD. cbn [plong p_lbin]. fold w. apply Inc; try assumption. rewrite E. reflexivity. }
      destruct (Z.eqb_spec (s32 w) (-1)) as [E|N2]; [|apply ok_keep].
      apply (ok_to _ _ D); [cbn; tauto|]. intros v0 v1 k H0 H1 Hk. cbn [plong p_lbin]. fold w. apply Inc; try assumption. rewrite E. lia.
    - (* DOR *) destruct (Z.eqb_spec (s32 w) 0) as [E|N]; [|apply ok_keep]. apply (ok_trio _ D). intros v0 v1 k H0 H1 Hk. cbn [plong p_lbin].
      fold w. rewrite (T0 0 E). change (u32 0) with 0. rewrite Z.lor_0_r. right. apply op_long_back; try assumption. lia.
    - (* DAND *) destruct (Z.eqb_spec w 4294967295) as [E|N]; [|apply ok_keep]. apply (ok_trio _ D). intros v0 v1 k H0 H1 Hk. cbn [plong p_lbin].
      fold w. rewrite E. right. apply back_eq; try assumption; [lia|]. change 4294967295 with (Z.ones 32). rewrite Z.land_ones by lia.
      apply Z.mod_small. apply mk32_range; assumption.
    - (* DCNV *) exfalso. apply Hb. eapply lu_dcnv; [apply two_const|exact Eo|rewrite Ec; reflexivity].
  Qed.
End Two.

(** ------------------------------------------------------------------ *)
Definition step_ok (t : list opType) (r : tout) : Prop :=
  r <> Broken /\ forall t' nx ch, r = Next t' nx ch -> preserved t t' /\ Forall wf_op t'.

Lemma run_rout_ok t r k : Forall wf_op t -> rout_ok (visible t) r ->
  (forall t1 nx ch, preserved t t1 -> Forall wf_op t1 -> step_ok t1 (k t1 nx ch)) -> step_ok t (run_rout t r k).
Proof.
  intros W H K. destruct r as [|a put os nx ch]; [contradiction|]. cbn [run_rout]. destruct H as (Wp & L & R).
  destruct (rewrite_ok t a put os W Wp L R) as [P W']. destruct (K _ nx ch P W') as [A B]. split; [exact A|].
  intros t' nx' ch' E. destruct (B _ _ _ E) as [P' W'']. split; [eapply preserved_trans; eassumption|exact W''].
Qed.
Lemma step_next t t' nx ch : preserved t t' -> Forall wf_op t' -> step_ok t (Next t' nx ch).
Proof. intros P W. split; [discriminate|]. intros ? ? ? E. injection E as <- <- <-. auto. Qed.

Lemma nth_skipn {A} (v : list A) i o : nth_error v i = Some o -> skipn i v = o :: skipn (S i) v.
Proof. revert i. induction v as [|x v IH]; intros [|i] H; try discriminate; [injection H as <-; reflexivity|]. cbn [skipn]. apply IH, H. Qed.

Lemma mk32_lo_hi v : word32_ v -> mk32 (lo16 v) (hi16 v) = v.
Proof. intros H. symmetry. apply lo_hi. exact H. Qed.

Lemma dec_inc p o : wf_op p -> wf_op o -> op p = oLONGOP8 -> op o = oLONGOP8 -> arg1 p = lop oDDEC -> arg1 o = lop oDINC -> refines [p; o] [].
Proof.
  intros Wp Wo Ep Eo Ap Ao. apply rule_pure; [mems|]. intros. cbn [prun].
  rewrite (pexec_long s0 p _ oDDEC Ep) by (rewrite Ap; reflexivity).
  assert (Hx : word32_ (mk32 v1 v0)) by (apply mk32_range; assumption).
  cbn [plong p_lun]. rewrite (plong_id 0) by (cbn; lia). rewrite (pexec_long s0 o _ oDINC Eo) by (rewrite Ao; reflexivity).
  cbn [plong p_lun]. rewrite mk32_lo_hi by apply u32_range. rewrite (back_eq _ v0 v1); try assumption; [|cbn; lia|].
  - right. split; [reflexivity|discriminate].
  - rewrite <- (u32_small (mk32 v1 v0) Hx) at 2. unfold u32, word32_ in *. lia.
Qed.

Lemma rout_none v a nx : (a <= length v)%nat -> rout_ok v (Rw a [] [] nx 0).
Proof. intros H. split; [constructor|]. cbn [length firstn]. split; [lia|apply wclos_refl]. Qed.

Lemma long_rest_ok t i : Forall wf_op t -> (i < length (visible t))%nat -> rout_ok (visible t) (long_unary_rest (visible t) i).
Proof.
  intros W Hi. pose proof (visible_wf t W) as Wv. unfold long_unary_rest.
  destruct i as [|j]; [apply rout_none; lia|].
  destruct (nth_error (visible t) j) as [p|] eqn:Ep; [|apply rout_none; lia].
  destruct (nth_error (visible t) (S j)) as [o|] eqn:Eo; [|apply rout_none; lia].
  destruct (_ && _ && _ && _) eqn:E; [|apply rout_none; lia].
  rewrite Forall_forall in Wv. apply nth_error_In in Ep as Ip. apply nth_error_In in Eo as Io.
  apply (win_rout j [p; o]); [|discriminate|].
  - exists (skipn (S (S j)) (visible t)). rewrite (nth_skipn _ _ _ Ep), (nth_skipn _ _ _ Eo). reflexivity.
  - split; [reflexivity|]. split; [constructor; [apply wf_nop|constructor; [apply wf_nop|constructor]]|]. split; [cbn; lia|].
    assert (Fp : op p = oLONGOP8) by lia. assert (Fo : op o = oLONGOP8) by lia.
    cbn [length firstn]. change (code [nop; nop]) with (@nil opType). (apply wclos_refines; [um|]). apply dec_inc; auto; lia.
Qed.

Lemma conv_ok j a o w : wf_op a -> wf_op o -> check_push a = true -> op o = oLONGOP8 ->
  (arg1 o = lop oCNVD /\ w = u32 (s16 (arg2 (expand_push a))) \/ arg1 o = lop oUCNVD /\ w = arg2 (expand_push a)) ->
  win_ok j [a; o] (long_conv j a w).
Proof.
  intros Wa Wo C Eo H. unfold long_conv. rewrite (expand_push_eq a Wa C). cbn [set_arg2 op arg1].
  set (x := mkOp oPUSH 0 (lo16 w)). set (y := mkOp oPUSH 0 (hi16 w)).
  change (set_arg2 _ (lo16 w)) with x.
  assert (Wx : wf_op x) by apply wf_PUSH, lo_word. assert (Wy : wf_op y) by apply wf_PUSH, hi_word.
  split; [reflexivity|]. split; [constructor; [apply optimize_push_wf, Wx|constructor; [apply optimize_push_wf, Wy|constructor]]|].
  split; [cbn; lia|]. rewrite !code_cons, !optimize_push_live by reflexivity. cbn [length firstn]. change (code []) with (@nil opType).
  apply (wclos_trans _ [x; y]); [apply wclos_refines; [um|]|eapply wclos_trans].
  - apply rule_pure; [mems|]. intros. cbn [prun]. rewrite (pexec_push s0 a _ Wa C). cbn [p_push length Nat.leb].
    unfold x, y. rewrite pexec_PUSH by apply lo_word. cbn [p_push length Nat.leb]. rewrite pexec_PUSH by apply hi_word.
    cbn [p_push length Nat.leb].
    destruct H as [[A ->]|[A ->]].
    + rewrite (pexec_long s0 o _ oCNVD Eo) by (rewrite A; reflexivity). cbn [plong]. rewrite (plong_id 0) by (cbn; lia).
      right. split; [reflexivity|discriminate].
    + rewrite (pexec_long s0 o _ oUCNVD Eo) by (rewrite A; reflexivity). cbn [plong]. rewrite (plong_id 0) by (cbn; lia).
      right. split; [reflexivity|discriminate].
  - apply (wclos_cons x [y] [optimize_push y]). apply optimize_push_wclos; exact Wy.
  - apply (wclos_snoc [x] [optimize_push x] [optimize_push y]). apply optimize_push_wclos; exact Wx.
Qed.

Theorem long_unary_table t i : Forall wf_op t ->
  (forall p0 p1 o, adjacent3 (visible t) p0 p1 o -> ~ long_unary_bad p0 p1 o) -> ~ long_first_bad (visible t) ->
  step_ok t (long_unary_step t i).
Proof.
  intros W H3 H2. unfold long_unary_step. destruct (Nat.leb_spec (length (slots t)) i) as [G|G]; [split; discriminate|].
  assert (Hi : (i < length (visible t))%nat) by (rewrite <- (slots_visible t 0); exact G).
  pose proof (visible_wf t W) as Wv. pose proof Wv as Wf. rewrite Forall_forall in Wf.
  assert (R : match long_unary_rule (visible t) i with Some r => lres_ok r (rout_ok (visible t)) | None => True end).
  { unfold long_unary_rule. destruct i as [|j1]; [exact I|].
    destruct (nth_error (visible t) (S j1)) as [o|] eqn:Eo; [|exact I].
    destruct (nth_error (visible t) j1) as [p1|] eqn:E1; [|exact I].
    destruct ((op o =? oLONGOP8) && check_push p1) eqn:Ec; [|exact I].
    apply andb_true_iff in Ec. destruct Ec as [Oo C1]. apply Z.eqb_eq in Oo.
    pose proof (Wf _ (nth_error_In _ _ Eo)) as Wo. pose proof (Wf _ (nth_error_In _ _ E1)) as W1.
    assert (Es : skipn j1 (visible t) = [p1; o] ++ skipn (S (S j1)) (visible t))
      by (rewrite (nth_skipn _ _ _ E1), (nth_skipn _ _ _ Eo); reflexivity).
    cbv zeta. destruct (Z.eqb_spec (arg1 o) (lop oCNVD)) as [A|A].
    { apply (win_rout j1 [p1; o]); [eexists; exact Es|discriminate|]. apply conv_ok; auto. }
    destruct (Z.eqb_spec (arg1 o) (lop oUCNVD)) as [A'|A'].
    { apply (win_rout j1 [p1; o]); [eexists; exact Es|discriminate|]. apply conv_ok; auto. }
    destruct j1 as [|j0].
    { exfalso. apply H2. cbn [skipn] in Es. rewrite Es. eapply lf_bad; [apply check_pushes; assumption|exact Oo|].
      intros [Q|[Q|[]]]; [apply A|apply A']; rewrite <- Q; reflexivity. }
    destruct (nth_error (visible t) j0) as [p0|] eqn:Ep0.
    2:{ exfalso. apply nth_error_None in Ep0. clear - Ep0 Hi. lia. }
    destruct (check_push p0) eqn:C0; [|apply rout_none; clear - Hi; lia].
    pose proof (Wf _ (nth_error_In _ _ Ep0)) as W0.
    assert (Es0 : skipn j0 (visible t) = [p0; p1; o] ++ skipn (S (S (S j0))) (visible t))
      by (rewrite (nth_skipn _ _ _ Ep0), Es; reflexivity).
    pose proof (long_unary_two_ok p0 p1 o W0 W1 Wo C0 C1 Oo j0 (nth_error (visible t) (S (S (S j0))))
      (H3 _ _ _ (skipn_adjacent3 _ _ _ _ _ _ Es0))) as L.
    destruct (long_unary_two _ _ _ _ _); cbn [lres_ok] in *; (apply (win_rout j0 [p0; p1; o]); [eexists; exact Es0|discriminate|exact L]). }
  destruct (long_unary_rule (visible t) i) as [[r|r]|].
  - apply run_rout_ok; [exact W|exact R|]. intros t1 nx ch _ W1. apply step_next; [apply preserved_refl|exact W1].
  - apply run_rout_ok; [exact W|exact R|]. intros t1 nx ch _ W1. destruct (opts_ok [(i - 1)%nat; (i - 2)%nat] t1 W1) as [P2 W2].
    set (t2 := fold_left opt_at _ t1) in *.
    assert (Q : step_ok t2 (match nth_error (visible t2) i with
      | None => Next t2 (S i) ch
      | Some o => if op o =? oLONGOP8 then run_rout t2 (long_unary_rest (visible t2) i) (fun t3 nx c => Next t3 nx (ch + c)) else Next t2 (S i) ch end)).
    { destruct (nth_error (visible t2) i) as [o|] eqn:Eo; [|apply step_next; [apply preserved_refl|exact W2]].
      destruct (op o =? oLONGOP8); [|apply step_next; [apply preserved_refl|exact W2]].
      apply run_rout_ok; [exact W2|apply long_rest_ok; [exact W2|apply nth_error_Some; congruence]|].
      intros; apply step_next; [apply preserved_refl|assumption]. }
    destruct Q as [Q1 Q2]. split; [exact Q1|]. intros t' nx' ch' E. destruct (Q2 _ _ _ E). split; [eapply preserved_trans; eassumption|assumption].
  - apply run_rout_ok; [exact W|apply long_rest_ok; [exact W|exact Hi]|]. intros; apply step_next; [apply preserved_refl|assumption].
Qed.
