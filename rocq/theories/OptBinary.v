(** popt_BinaryOptimize *)

From Coq Require Import ZArith Bool List Lia ZifyBool.
From Verif Require Import Words State Opcodes SetModel LongModel Machine WordLemmas StateLemmas VmSpec VmProofs MemProofs
  EncodeSpec OptSpec OptStack OptPure OptStep OptFine OptUnary OptTable OptExcept OptUnaryStep PoptModel.
Import ListNotations.
Open Scope Z_scope.
Ltac Zify.zify_post_hook ::= Z.div_mod_to_equations.

(** ------------------------------------------------------------------ *)
(** Sequences which first push constants and load variables *)
Definition loader (o : opType) : Prop := (check_push o = true /\ wf_op o) \/ In (op o) direct.

Lemma all_fine_split s0 k0 p q : start s0 -> top s0 s0 k0 -> (length k0 = 4)%nat ->
  Forall loader p -> (forall o, In o p -> forall i, reads s0 o i -> ~ (sp s0 / 2 < i <= sp s0 / 2 + DEPTH)) ->
  (forall o, In o q -> ~ In (op o) mem_codes) -> forall ks, all_fine s0 (p ++ q) (ks ++ k0).
Proof.
  intros S0 T L Hp Hr Hq. induction p as [|o p IH]; intros ks; cbn [app].
  - apply all_fine_plain. exact Hq.
  - inversion Hp as [|? ? Ho Hp']; subst. cbn [all_fine]. split.
    + destruct Ho as [[C W]|Hd].
      * apply fine_plain. apply push_not_mem. exact C.
      * apply fine_direct; try assumption. apply Hr. left. reflexivity.
    + assert (Hn : forall v k', p_push v (ks ++ k0) = PF k' -> k' = (v :: ks) ++ k0).
      { intros v k'. unfold p_push. destruct (_ <=? _)%nat; [|discriminate]. intros E. injection E as <-. reflexivity. }
      assert (HI : forall ks', all_fine s0 (p ++ q) (ks' ++ k0)).
      { apply IH; [exact Hp'|]. intros o' Ho'. apply Hr. right. exact Ho'. }
      destruct (pexec s0 o (ks ++ k0)) as [k'| | |] eqn:E; try exact I.
      destruct Ho as [[C W]|Hd].
      * rewrite (pexec_push s0 o _ W C) in E. rewrite (Hn _ _ E). apply HI.
      * rewrite (pexec_direct s0 o _ Hd) in E. destruct (memval s0 o []) as [v|]; [|discriminate].
        cbn [p_opt] in E. rewrite (Hn _ _ E). apply HI.
Qed.

Lemma rule_load_if (P : st -> Prop) p q p' q' : Forall loader p -> Forall loader p' ->
  (forall o, In o (q ++ q') -> ~ In (op o) mem_codes) ->
  (forall s0 v0 v1 v2 v3, P s0 -> top s0 s0 [v0; v1; v2; v3] -> word v0 -> word v1 -> word v2 -> word v3 ->
     pmatch (prun s0 (p ++ q) [v0; v1; v2; v3]) (prun s0 (p' ++ q') [v0; v1; v2; v3])) ->
  refines_if P (p ++ q) (p' ++ q').
Proof.
  intros Hp Hp' Hq H s R Hsp C HP. assert (S0 : start s) by (split; assumption).
  destruct (start_top s S0) as (v0 & v1 & v2 & v3 & T).
  assert (Hr : forall o, In o ((p ++ q) ++ p' ++ q') -> forall i, reads s o i -> ~ (sp s / 2 < i <= sp s / 2 + DEPTH))
    by (intros; eapply clean_app; eassumption).
  eapply (run_matches s S0 (p ++ q) (p' ++ q') [v0; v1; v2; v3] T); [cbn; lia| | |].
  - apply (all_fine_split s [v0; v1; v2; v3] p q S0 T eq_refl Hp) with (ks := []).
    + intros o Ho. apply Hr. rewrite !in_app_iff. tauto.
    + intros o Ho. apply Hq. rewrite in_app_iff. tauto.
  - apply (all_fine_split s [v0; v1; v2; v3] p' q' S0 T eq_refl Hp') with (ks := []).
    + intros o Ho. apply Hr. rewrite !in_app_iff. tauto.
    + intros o Ho. apply Hq. rewrite in_app_iff. tauto.
  - apply H; [exact HP|exact T| | | |]; [eapply (top_val s s _ 0)|eapply (top_val s s _ 1)|eapply (top_val s s _ 2)|eapply (top_val s s _ 3)];
      try exact T; reflexivity.
Qed.
Lemma rule_load p q p' q' : Forall loader p -> Forall loader p' ->
  (forall o, In o (q ++ q') -> ~ In (op o) mem_codes) ->
  (forall s0 v0 v1 v2 v3, word v0 -> word v1 -> word v2 -> word v3 ->
     pmatch (prun s0 (p ++ q) [v0; v1; v2; v3]) (prun s0 (p' ++ q') [v0; v1; v2; v3])) ->
  refines (p ++ q) (p' ++ q').
Proof. intros Hp Hp' Hq H. apply rule_load_if; try assumption. intros; apply H; assumption. Qed.

(** ------------------------------------------------------------------ *)
Lemma prun_nil s0 k : prun s0 [] k = PF k.
Proof. reflexivity. Qed.

Lemma u16_add_s16 v w : u16 (s16 v + s16 w) = u16 (v + w).
Proof.
  destruct (proj1 (u16_eq_iff (s16 v) v) (u16_s16 v)) as [k1 E1]. destruct (proj1 (u16_eq_iff (s16 w) w) (u16_s16 w)) as [k2 E2].
  apply (u16_congr _ _ (k1 + k2)). lia.
Qed.
Lemma u16_sub_s16 v w : u16 (s16 v - s16 w) = u16 (v - w).
Proof.
  destruct (proj1 (u16_eq_iff (s16 v) v) (u16_s16 v)) as [k1 E1]. destruct (proj1 (u16_eq_iff (s16 w) w) (u16_s16 w)) as [k2 E2].
  apply (u16_congr _ _ (k1 - k2)). lia.
Qed.

Lemma s16_sign v : word v -> s16 v = if sign16 v then v else v - 65536.
Proof. intros H. unfold sign16, s16. rewrite u16_small by exact H. reflexivity. Qed.

Lemma get_base_shift s lvl off off' y0 : s16 off' = s16 off + y0 -> (0 <=? s16 off') = (0 <=? s16 off) ->
  get_base s lvl (s16 off') = match get_base s lvl (s16 off) with Some v => Some (u16 (v + y0)) | None => None end.
Proof.
  intros E Es. unfold get_base. destruct (follow_links s (Z.to_nat lvl) (fp s)); [|reflexivity]. cbn [bindO].
  cbv zeta. rewrite Es, E. f_equal. destruct (0 <=? s16 off); repeat rewrite u16_add_l; [rewrite <- (Z.add_assoc (u16 _)), u16_add_l|]; apply (f_equal u16); ring.
Qed.

Section Consts.
  Variables (a b o : opType).
  Hypothesis Wa : wf_op a.
  Hypothesis Wb : wf_op b.
  Hypothesis Ca : check_push a = true.
  Let x := arg2 (expand_push a).

  Lemma c_fold d r : check_push b = true -> decode_op8 (op o) = Some d -> word r ->
    (forall k, p8 d (arg2 (expand_push b) :: x :: k) = PF (r :: k)) -> refines [a; b; o] [mkOp oPUSH 0 r].
  Proof.
    intros Cb D Hr H. apply rule_pure.
    { intros q Hq. cbn [app In] in Hq. destruct Hq as [<-|[<-|[<-|[<-|[]]]]]; 
        [apply push_not_mem; assumption|apply push_not_mem; assumption|eapply dec8_not_mem; eassumption|cbn; intuition discriminate]. }
    intros. cbn [prun]. rewrite (pexec_push s0 a _ Wa Ca). cbn [p_push length Nat.leb].
    rewrite (pexec_push s0 b _ Wb Cb). cbn [p_push length Nat.leb]. rewrite (pexec_8 s0 o _ d D). fold x. rewrite H.
    rewrite pexec_PUSH by exact Hr. right. split; [reflexivity|discriminate].
  Qed.

  Hypothesis Db : In (op b) direct.

  Lemma f_rule d y : decode_op8 (op o) = Some d -> (forall q, In q y -> ~ In (op q) mem_codes) ->
    (forall s0 w k, word w -> (length k <= 6)%nat -> pmatch (p8 d (w :: x :: k)) (prun s0 y (w :: k))) ->
    refines [a; b; o] (b :: y).
  Proof.
    intros D Hy H. change [a; b; o] with ([a; b] ++ [o]). change (b :: y) with ([b] ++ y). apply rule_load.
    - constructor; [left; split; assumption|]. constructor; [right; exact Db|constructor].
    - constructor; [right; exact Db|constructor].
    - intros q Hq. apply in_app_or in Hq. destruct Hq as [[<-|[]]|Hq]; [eapply dec8_not_mem; eassumption|apply Hy; exact Hq].
    - intros. cbn [app prun]. rewrite (pexec_push s0 a _ Wa Ca). cbn [p_push length Nat.leb].
      rewrite !(pexec_direct s0 b _ Db). destruct (memval s0 b []) as [w|]; [|left; reflexivity].
      cbn [p_opt p_push length Nat.leb]. rewrite (pexec_8 s0 o _ d D). fold x.
      destruct (H s0 (u16 w) [v0; v1; v2; v3] (u16_range w)) as [E|[E N]]; [cbn; lia|left; rewrite E; reflexivity|].
      right. rewrite <- E. destruct (p8 d _) eqn:E8; split; try reflexivity; try discriminate; try congruence.
  Qed.
End Consts.

(** a constant after an arbitrary instruction: rules for [b; o] *)
Section Step.
  Variables (i : nat) (a b o : opType).
  Hypothesis Wa : wf_op a.
  Hypothesis Wb : wf_op b.
  Hypothesis Wo : wf_op o.
  Hypothesis La : live a = true.
  Hypothesis Lb : live b = true.
  Hypothesis Lo : live o = true.
  Hypothesis Ma : inside a.
  Hypothesis Mb : inside b.
  Hypothesis Mo : inside o.
  Hypothesis Hbad : ~ binary_bad a b o.

  Ltac wf := repeat (apply Forall_cons || apply Forall_nil); try assumption; try apply wf_nop; try (apply wf_PUSH).
  Ltac codes := rewrite ?code_cons; 
    repeat match goal with H : live ?x = true |- context [live ?x] => rewrite H end;
    try change (live nop) with false; cbv iota.
  Ltac bin := intros; cbn [p8]; unfold p_scmp, p_ucmp, p_cmpz; cbn [p_bin p_un].

  Lemma stay3 : win_ok i [a; b; o] (stay i).
  Proof. split; [reflexivity|]. split; [constructor|]. split; [cbn; lia|]. apply wclos_refl. Qed.

  Section Consts2.
  Hypothesis Ca : check_push a = true.
  Hypothesis Cb : check_push b = true.
  Let x := arg2 (expand_push a).
  Let y := arg2 (expand_push b).
  Let Ea : expand_push a = mkOp oPUSH 0 x := expand_push_eq a Wa Ca.
  Let Eb : expand_push b = mkOp oPUSH 0 y := expand_push_eq b Wb Cb.
  Let Wx : word x := c_word a Wa.
  Let Wy : word y := c_word b Wb.
  Let Hx : pushes a x := check_pushes a Wa Ca.
  Let Hy : pushes b y := check_pushes b Wb Cb.

  Lemma bs_fold d r : decode_op8 (op o) = Some d -> word r -> (forall k, p8 d (y :: x :: k) = PF (r :: k)) ->
    win_ok i [a; b; o] (b_fold i a r).
  Proof.
    intros D Hr H. unfold b_fold. rewrite Ea. split; [reflexivity|]. split; [unfold set_arg2; cbn [op arg1]; wf; exact Hr|].
    split; [cbn; lia|]. (apply wclos_refines; [um|]). exact (c_fold a b o Wa Wb Ca d r Cb D Hr H).
  Qed.
  Lemma bs_default : win_ok i [a; b; o] (Rw i [expand_push a; expand_push b] [i; S i] i 0).
  Proof.
    rewrite Ea, Eb. split; [reflexivity|]. split; [wf; assumption|]. split; [cbn; lia|].
    apply (wclos_trans _ [mkOp oPUSH 0 x; b]).
    - apply (wclos_snoc [a] [mkOp oPUSH 0 x] [b]). (apply wclos_refines; [um|]). exact (r_push a Wa Ca 0).
    - apply (wclos_cons (mkOp oPUSH 0 x) [b] [mkOp oPUSH 0 y]). (apply wclos_refines; [um|]). exact (r_push b Wb Cb 0).
  Qed.

  Lemma int_ok_xy : int_ok (x * y) = false -> 2147483648 <= x * y.
  Proof.
    unfold int_ok, word in *. intros H. pose proof Wx. pose proof Wy. unfold word in *.
    assert (0 <= x * y) by nia. lia.
  Qed.

  Lemma ucmp_sign : In (op o) [oULT; oUGTE; oUGT; oULTE] -> s16 x - s16 y = x - y.
  Proof.
    intros Ho. rewrite !s16_sign by assumption.
    destruct (bool_dec (sign16 x) (sign16 y)) as [E|E]; [rewrite E; destruct (sign16 y); lia|].
    exfalso. apply Hbad. eapply bb_ucmp; eassumption.
  Qed.

  Lemma binary_consts_ok : win_ok i [a; b; o] (binary_consts i a b o).
  Proof.
    unfold binary_consts. cbv zeta. fold x y. destruct (decode_op8 (op o)) as [d|] eqn:D; [|apply bs_default].
    pose proof (dec8_inv _ _ D) as Eo. pose proof Wx as Wx'. pose proof Wy as Wy'. unfold word in Wx', Wy'.
    destruct d; try apply bs_default.
    - apply (bs_fold ADD); [exact D|apply u16_range|]. bin. rewrite u16_add_s16. reflexivity.
    - apply (bs_fold SUB); [exact D|apply u16_range|]. bin. rewrite u16_sub_s16. reflexivity.
    - destruct (int_ok (x * y)) eqn:E.
      + apply (bs_fold MUL); [exact D|apply u16_range|]. bin. rewrite u16_mul_s16_l, u16_mul_s16_r. reflexivity.
      + exfalso. apply Hbad. eapply bb_mul; [exact Hx|exact Hy|rewrite Eo; cbn; tauto|apply int_ok_xy; exact E].
    - destruct (Z.eqb_spec (s16 y) 0) as [E|E].
      { exfalso. apply Hbad. assert (y = 0) by (apply s16_inj; [lia|lia|rewrite E; reflexivity]).
        eapply bb_zero; [exact Hx| |rewrite Eo; cbn; tauto]. rewrite <- H. exact Hy. }
      apply (bs_fold DIV); [exact D|apply u16_range|]. bin. apply Z.eqb_neq in E. rewrite E.
      rewrite (s16_sign x Wx). destruct (sign16 x) eqn:Es; [reflexivity|]. exfalso. apply Hbad. 
      eapply bb_div; [exact Hx|exact Hy|exact Eo|exact Es].
    - destruct (Z.eqb_spec y 0) as [E|E].
      { exfalso. apply Hbad. eapply bb_zero; [exact Hx| |rewrite Eo; cbn; tauto]. rewrite <- E. exact Hy. }
      assert (Hs : sign16 x = true /\ sign16 y = true).
      { destruct (sign16 x) eqn:E1; destruct (sign16 y) eqn:E2; auto; exfalso; apply Hbad;
          eapply bb_mod; [exact Hx|exact Hy|exact Eo|tauto|exact Hx|exact Hy|exact Eo|tauto|exact Hx|exact Hy|exact Eo|tauto]. }
      destruct Hs as [E1 E2]. apply (bs_fold MOD); [exact D|unfold word; lia|]. bin. rewrite !s16_sign by assumption. rewrite E1, E2.
      apply Z.eqb_neq in E. rewrite E. rewrite Z.rem_mod_nonneg by lia. rewrite u16_small by lia. reflexivity.
    - apply (bs_fold OR); [exact D|apply lor16; assumption|]. bin. rewrite u16_small by (apply lor16; assumption). reflexivity.
    - apply (bs_fold AND); [exact D|apply land16; assumption|]. bin. rewrite u16_small by (apply land16; assumption). reflexivity.
    - apply (bs_fold EQU); [exact D|apply btrue_word|]. bin. rewrite btrue_u16. do 3 f_equal.
      rewrite !s16_sign by assumption. unfold sign16. destruct (x <? 32768) eqn:?; destruct (y <? 32768) eqn:?; lia.
    - apply (bs_fold NEQ); [exact D|apply btrue_word|]. bin. rewrite btrue_u16, Z.eqb_sym. reflexivity.
    - apply (bs_fold LT); [exact D|apply btrue_word|]. bin. rewrite btrue_u16. reflexivity.
    - apply (bs_fold GTE); [exact D|apply btrue_word|]. bin. rewrite btrue_u16. reflexivity.
    - apply (bs_fold GT); [exact D|apply btrue_word|]. bin. rewrite btrue_u16. reflexivity.
    - apply (bs_fold LTE); [exact D|apply btrue_word|]. bin. rewrite btrue_u16. reflexivity.
    - destruct (int_ok (x * y)) eqn:E.
      + apply (bs_fold UMUL); [exact D|apply u16_range|]. bin. unfold umul16. rewrite E, u16_u16. reflexivity.
      + exfalso. apply Hbad. eapply bb_mul; [exact Hx|exact Hy|rewrite Eo; cbn; tauto|apply int_ok_xy; exact E].
    - destruct (Z.eqb_spec y 0) as [E|E].
      { exfalso. apply Hbad. eapply bb_zero; [exact Hx| |rewrite Eo; cbn; tauto]. rewrite <- E. exact Hy. }
      apply (bs_fold UMOD); [exact D|unfold word; lia|]. bin. 
      apply Z.eqb_neq in E. rewrite E. rewrite u16_small by lia. reflexivity.
    - pose proof (ucmp_sign ltac:(rewrite Eo; cbn; tauto)).
      apply (bs_fold ULT); [exact D|apply btrue_word|]. bin. rewrite btrue_u16. do 3 f_equal. lia.
    - pose proof (ucmp_sign ltac:(rewrite Eo; cbn; tauto)).
      apply (bs_fold UGTE); [exact D|apply btrue_word|]. bin. rewrite btrue_u16. do 3 f_equal. lia.
    - pose proof (ucmp_sign ltac:(rewrite Eo; cbn; tauto)).
      apply (bs_fold UGT); [exact D|apply btrue_word|]. bin. rewrite btrue_u16. do 3 f_equal. lia.
    - pose proof (ucmp_sign ltac:(rewrite Eo; cbn; tauto)).
      apply (bs_fold ULTE); [exact D|apply btrue_word|]. bin. rewrite btrue_u16. do 3 f_equal. lia.
  Qed.
  End Consts2.

  Lemma plain8 z : (exists d, decode_op8 z = Some d) -> forall x y, ~ In (op (mkOp z x y)) mem_codes.
  Proof. intros [d D] x y. eapply dec8_not_mem. cbn [op]. exact D. Qed.

  Section Frame.
  Hypothesis Ca : check_push a = true.
  Let x := arg2 (expand_push a).
  Let Ea : expand_push a = mkOp oPUSH 0 x := expand_push_eq a Wa Ca.
  Let Wx : word x := c_word a Wa.
  Let Hx : pushes a x := check_pushes a Wa Ca.

  Lemma fs_skip : win_ok i [a; b; o] (f_skip i a).
  Proof.
    unfold f_skip. rewrite Ea. split; [reflexivity|]. split; [wf; assumption|].
    split; [cbn; lia|]. (apply wclos_refines; [um|]). exact (r_push a Wa Ca 0).
  Qed.

  Hypothesis Db : In (op b) direct.
  Lemma fs_drop d : decode_op8 (op o) = Some d ->
    (forall w k, word w -> p8 d (w :: x :: k) = PStop \/ p8 d (w :: x :: k) = PF (w :: k)) ->
    win_ok i [a; b; o] (Rw i [nop; b; nop] [i] i 1).
  Proof.
    intros D H. split; [reflexivity|]. split; [wf|]. split; [cbn; lia|]. codes. (apply wclos_refines; [um|]).
    apply (f_rule a b o Wa Ca Db d [] D); [intros q []|].
    intros. cbn [prun]. destruct (H w k H0) as [E|E]; fold x; rewrite E; [left; reflexivity|right; split; [reflexivity|discriminate]].
  Qed.
  Lemma fs_to d z d' : decode_op8 (op o) = Some d -> decode_op8 z = Some d' ->
    In z [oINC; oDEC; oNEG; oEQUZ; oNEQZ; oLTZ; oGTEZ; oGTZ; oLTEZ] ->
    (forall w k, word w -> pmatch (p8 d (w :: x :: k)) (p8 d' (w :: k))) ->
    win_ok i [a; b; o] (f_to i b o z).
  Proof.
    intros D D' Hz H. unfold f_to.
    assert (Eo : set_op o z = mkOp z 0 0) by (rewrite (wf_8 o d Wo D); reflexivity). rewrite Eo.
    split; [reflexivity|]. split; [wf; apply wf_op8; cbn in *; tauto|]. split; [cbn; lia|].
    replace (code [nop; b; mkOp z 0 0]) with [b; mkOp z 0 0].
    2:{ codes. cbn [In] in Hz. repeat (destruct Hz as [<-|Hz]; [reflexivity|]). contradiction. }
    (apply wclos_refines; [um|]). apply (f_rule a b o Wa Ca Db d [mkOp z 0 0] D).
    { intros q [<-|[]]. apply plain8. exists d'. exact D'. }
    intros. cbn [prun]. rewrite (pexec_8 s0 (mkOp z 0 0) _ d' D'). fold x. destruct (H w k H0) as [E|[E N]]; [left; exact E|].
    right. rewrite <- E. split; [|exact N]. destruct (p8 d _); reflexivity.
  Qed.
  Lemma fs_mul d : decode_op8 (op o) = Some d -> 
    (x = 1 -> forall w k, word w -> p8 d (w :: x :: k) = PStop \/ p8 d (w :: x :: k) = PF (w :: k)) ->
    (forall t w k, 1 <= t <= 15 -> x = 2 ^ t -> word w -> pmatch (p8 d (w :: x :: k)) (p8 SLL (u16 t :: w :: k))) ->
    win_ok i [a; b; o] (f_mul i a b o x).
  Proof.
    intros D H1 H2. unfold f_mul. destruct (Z.eqb_spec x 1) as [E|E].
    { unfold f_drop. apply (fs_drop d D). apply H1. exact E. }
    cbv zeta. destruct ((1 <=? power_of_two x) && (power_of_two x <=? 14)) eqn:Et; [|apply fs_skip].
    destruct (power_of_two_spec x Wx ltac:(lia)) as [E2 H15]. set (t := power_of_two x) in *.
    assert (Wt : word t) by (unfold word; lia).
    assert (Eo : set_op o oSLL = mkOp oSLL 0 0) by (rewrite (wf_8 o d Wo D); reflexivity). rewrite Eo.
    split; [reflexivity|]. split; [wf; [exact Wt|apply wf_op8; cbn; tauto]|]. split; [cbn; lia|].
    codes. (apply wclos_refines; [um|]). apply (f_rule a b o Wa Ca Db d [mkOp oPUSH 0 t; mkOp oSLL 0 0] D).
    { intros q [<-|[<-|[]]]; cbn; intuition discriminate. }
    intros. cbn [prun]. rewrite pexec_PUSH by exact Wt. unfold p_push. cbn [length].
    replace (S (length k) <=? 7)%nat with true by (symmetry; apply Nat.leb_le; lia).
    rewrite (pexec_8 s0 (mkOp oSLL 0 0) _ SLL eq_refl). fold x.
    pose proof (H2 t w k ltac:(lia) E2 H) as HM. rewrite (u16_small t) in HM by (unfold word in Wt; lia).
    destruct HM as [HE|[HE N]]; [left; exact HE|].
    right. rewrite <- HE. split; [|exact N]. destruct (p8 d _); reflexivity.
  Qed.

  Lemma binary_frame_ok : In (op b) [oLDS; oLDSB; oULDSB; oLAS; oLAC] -> win_ok i [a; b; o] (binary_frame i a b o).
  Proof.
    intros Hb. unfold binary_frame. cbv zeta. fold x. destruct (decode_op8 (op o)) as [d|] eqn:D; [|apply fs_skip].
    pose proof (dec8_inv _ _ D) as Eo. pose proof Wx as Wx'. unfold word in Wx'.
    assert (Hc : x = 0 -> In (op o) [oLT; oGTE; oGT; oLTE] -> False).
    { intros E Ho. apply Hbad. apply bb_cmp; [rewrite <- E; exact Hx|exact Hb|exact Ho]. }
    destruct d; try apply fs_skip.
    - destruct (Z.eqb_spec x 0) as [E|E].
      { apply (fs_drop ADD D). bin. right. rewrite u16_add_s16, E, Z.add_0_l, u16_small by assumption. reflexivity. }
      destruct (Z.eqb_spec x 1) as [E1|E1].
      { apply (fs_to ADD oINC INC D); [reflexivity|cbn; tauto|]. bin. rewrite u16_add_s16, E1, Z.add_comm. right; split; [reflexivity|discriminate]. }
      destruct (Z.eqb_spec x 65535) as [E2|E2]; [|apply fs_skip].
      apply (fs_to ADD oDEC DEC D); [reflexivity|cbn; tauto|]. bin. rewrite u16_add_s16, E2.
      replace (u16 (65535 + w)) with (u16 (w - 1)) by (symmetry; apply (u16_congr _ _ 1); lia).
      right; split; [reflexivity|discriminate].
    - destruct (Z.eqb_spec x 0) as [E|E]; [|apply fs_skip]. exfalso. apply Hbad. apply bb_sub; [rewrite <- E; exact Hx| |exact Eo].
      cbn [In] in *. tauto.
    - apply (fs_mul MUL D).
      + intros E. bin. right. rewrite u16_mul_s16_r, u16_mul_s16_l, E, Z.mul_1_l, u16_small by assumption. reflexivity.
      + bin. rewrite (shift_mul w x t Wx) by assumption. right. split; [|discriminate].
        rewrite u16_mul_s16_r, u16_mul_s16_l, u16_u16, Z.mul_comm. reflexivity.
    - destruct (Z.eqb_spec x 0) as [E|E]; [|apply fs_skip]. apply (fs_drop OR D). bin. rewrite E, Z.lor_0_l. right.
      rewrite u16_small by assumption. reflexivity.
    - destruct (Z.eqb_spec x 65535) as [E|E]; [|apply fs_skip]. apply (fs_drop AND D). bin. rewrite E. right.
      change 65535 with (Z.ones 16). rewrite Z.land_comm, Z.land_ones by lia. rewrite Z.mod_small by assumption. rewrite u16_small by assumption. reflexivity.
    - unfold f_zero. fold x. destruct (Z.eqb_spec x 0) as [E|E]; [|apply fs_skip].
      apply (fs_to EQU oEQUZ EQUZ D); [reflexivity|cbn; tauto|]. bin. rewrite E. right; split; [reflexivity|discriminate].
    - unfold f_zero. fold x. destruct (Z.eqb_spec x 0) as [E|E]; [|apply fs_skip].
      apply (fs_to NEQ oNEQZ NEQZ D); [reflexivity|cbn; tauto|]. bin. rewrite E. right; split; [reflexivity|discriminate].
    - unfold f_zero. fold x. destruct (Z.eqb_spec x 0) as [E|E]; [|apply fs_skip]. exfalso. apply Hc; [exact E|rewrite Eo; cbn; tauto].
    - unfold f_zero. fold x. destruct (Z.eqb_spec x 0) as [E|E]; [|apply fs_skip]. exfalso. apply Hc; [exact E|rewrite Eo; cbn; tauto].
    - unfold f_zero. fold x. destruct (Z.eqb_spec x 0) as [E|E]; [|apply fs_skip]. exfalso. apply Hc; [exact E|rewrite Eo; cbn; tauto].
    - unfold f_zero. fold x. destruct (Z.eqb_spec x 0) as [E|E]; [|apply fs_skip]. exfalso. apply Hc; [exact E|rewrite Eo; cbn; tauto].
    - apply (fs_mul UMUL D).
      + intros E. bin. unfold umul16. rewrite E, Z.mul_1_l. destruct (int_ok w); [right|left; reflexivity]. 
        rewrite u16_u16, u16_small by assumption. reflexivity.
      + bin. rewrite (shift_mul w x t Wx) by assumption. unfold umul16. destruct (int_ok (x * w)); [right|left; reflexivity].
        split; [|discriminate]. rewrite Z.mul_comm. reflexivity.
  Qed.

  Lemma binary_swap_ok : In (op b) direct -> win_ok i [a; b; o] (binary_swap i a b o).
  Proof.
    intros _. unfold binary_swap. rewrite Ea. fold x. destruct (check_transitive o) eqn:Ct.
    - split; [reflexivity|]. split; [wf; exact Wx|]. split; [cbn; lia|].
      change (code [b; mkOp oPUSH 0 x; o]) with (code ([b] ++ [mkOp oPUSH 0 x] ++ [o])). cbn [app]. codes.
      change (live (mkOp oPUSH 0 x)) with true. cbv iota. codes.
      (apply wclos_refines; [um|]). unfold check_transitive in Ct. apply one_of_In in Ct. 
      assert (HD : exists d, decode_op8 (op o) = Some d /\ forall v w k, word v -> word w -> p8 d (v :: w :: k) = p8 d (w :: v :: k)).
      { cbn [In] in Ct.
        destruct Ct as [E|[E|[E|[E|[E|[E|[E|[]]]]]]]]; rewrite <- E; eexists; (split; [reflexivity|]); bin.
        - rewrite Z.add_comm. reflexivity.
        - rewrite Z.mul_comm. reflexivity.
        - rewrite Z.lor_comm. reflexivity.
        - rewrite Z.land_comm. reflexivity.
        - rewrite Z.eqb_sym. reflexivity.
        - rewrite Z.eqb_sym. reflexivity.
        - unfold umul16. rewrite Z.mul_comm. reflexivity. }
      destruct HD as (d & D & HS). apply (f_rule a b o Wa Ca Db d [mkOp oPUSH 0 x; o] D).
      { intros q [<-|[<-|[]]]; [cbn; intuition discriminate|eapply dec8_not_mem; exact D]. }
      intros. cbn [prun]. rewrite pexec_PUSH by exact Wx. unfold p_push. cbn [length].
      replace (S (length k) <=? 7)%nat with true by (symmetry; apply Nat.leb_le; lia).
      rewrite (pexec_8 s0 o _ d D). fold x. rewrite (HS w x k H Wx). right. split; [destruct (p8 d _); reflexivity|].
      (* a commutative operator on known operands is defined *)
      cbn [In] in Ct. assert (Hd : In d [ADD; MUL; OR; AND; EQU; NEQ; UMUL]).
      { clear - D Ct. destruct Ct as [E|[E|[E|[E|[E|[E|[E|[]]]]]]]]; rewrite <- E in D; injection D as <-; cbn; tauto. }
      cbn [In] in Hd. destruct Hd as [<-|[<-|[<-|[<-|[<-|[<-|[<-|[]]]]]]]]; bin; try discriminate.
      destruct (umul16 _ _); discriminate.
    - destruct (decode_op8 (op o)) as [d|] eqn:D; [|apply fs_skip].
      destruct d; try apply fs_skip. cbn [arg2]. destruct (Z.eqb_spec x 0) as [E|E]; [|apply fs_skip].
      exfalso. apply Hbad. apply bb_sub; [rewrite <- E; exact Hx|exact Db|exact (dec8_inv _ _ D)].
  Qed.
  End Frame.

  (** anything, then a constant *)
  Section Any.
  Hypothesis Cb : check_push b = true.
  Let y := arg2 (expand_push b).
  Let Eb : expand_push b = mkOp oPUSH 0 y := expand_push_eq b Wb Cb.
  Let Wy : word y := c_word b Wb.
  Let Hy : pushes b y := check_pushes b Wb Cb.

  Lemma xs_skip : win_ok i [a; b; o] (x_skip i a b).
  Proof.
    unfold x_skip. rewrite Eb. split; [reflexivity|]. split; [wf; exact Wy|]. split; [cbn; lia|].
    codes. change (live (mkOp oPUSH 0 y)) with true. cbv iota. cbn [length firstn]. change (code []) with (@nil opType).
    apply wclos_cons. (apply wclos_refines; [um|]). exact (r_push b Wb Cb 0).
  Qed.
  Lemma xs_drop d : decode_op8 (op o) = Some d ->
    (forall v k, word v -> p8 d (y :: v :: k) = PStop \/ p8 d (y :: v :: k) = PF (v :: k)) ->
    win_ok i [a; b; o] (x_drop i a).
  Proof.
    intros D H. split; [reflexivity|]. split; [wf|]. split; [cbn; lia|]. codes. cbn [length firstn]. change (code []) with (@nil opType).
    apply wclos_cons. (apply wclos_refines; [um|]). exact (r_drop b o Wb Cb d D H).
  Qed.
  Lemma xs_to d z d' : decode_op8 (op o) = Some d -> decode_op8 z = Some d' -> In z [oINC; oDEC; oNEG] ->
    (forall v k, word v -> pmatch (p8 d (y :: v :: k)) (p8 d' (v :: k))) ->
    win_ok i [a; b; o] (x_to i a o z).
  Proof.
    intros D D' Hz H. unfold x_to.
    assert (Eo : set_op o z = mkOp z 0 0) by (rewrite (wf_8 o d Wo D); reflexivity). rewrite Eo.
    split; [reflexivity|]. split; [wf; apply wf_op8; cbn in *; tauto|]. split; [cbn; lia|].
    replace (code [a; nop; mkOp z 0 0]) with [a; mkOp z 0 0].
    2:{ codes. cbn [In] in Hz. repeat (destruct Hz as [<-|Hz]; [reflexivity|]). contradiction. }
    cbn [length firstn]. apply wclos_cons. (apply wclos_refines; [um|]). apply (r_to b o Wb Cb d (mkOp z 0 0) d' D D').
    intros v k Hv. split; [apply H; exact Hv|]. intros; apply p8_nj.
  Qed.

  Lemma binary_any_ok : win_ok i [a; b; o] (binary_any i a b o).
  Proof.
    unfold binary_any. cbv zeta. fold y. destruct (decode_op8 (op o)) as [d|] eqn:D; [|apply xs_skip].
    pose proof (dec8_inv _ _ D) as Eo. pose proof Wy as Wy'. unfold word in Wy'.
    destruct d; try apply xs_skip.
    - destruct (Z.eqb_spec y 1) as [E1|E1].
      { apply (xs_to ADD oINC INC D); [reflexivity|cbn; tauto|]. bin. rewrite u16_add_s16, E1. right; split; [reflexivity|discriminate]. }
      destruct (Z.eqb_spec y 0) as [E|E].
      { apply (xs_drop ADD D). bin. right. rewrite u16_add_s16, E, Z.add_0_r, u16_small by assumption. reflexivity. }
      destruct (Z.eqb_spec y 65535) as [E2|E2]; [|apply xs_skip].
      apply (xs_to ADD oDEC DEC D); [reflexivity|cbn; tauto|]. bin. rewrite u16_add_s16, E2.
      replace (u16 (v + 65535)) with (u16 (v - 1)) by (symmetry; apply (u16_congr _ _ 1); lia).
      right; split; [reflexivity|discriminate].
    - destruct (Z.eqb_spec y 1) as [E1|E1].
      { apply (xs_to SUB oDEC DEC D); [reflexivity|cbn; tauto|]. bin. rewrite u16_sub_s16, E1. right; split; [reflexivity|discriminate]. }
      destruct (Z.eqb_spec y 0) as [E|E].
      { apply (xs_drop SUB D). bin. right. rewrite u16_sub_s16, E, Z.sub_0_r, u16_small by assumption. reflexivity. }
      destruct (Z.eqb_spec y 65535) as [E2|E2]; [|apply xs_skip].
      apply (xs_to SUB oINC INC D); [reflexivity|cbn; tauto|]. bin. rewrite u16_sub_s16, E2.
      replace (u16 (v - 65535)) with (u16 (v + 1)) by (symmetry; apply (u16_congr _ _ (-1)); lia).
      right; split; [reflexivity|discriminate].
    - destruct (Z.eqb_spec y 1) as [E1|E1].
      { apply (xs_drop MUL D). bin. right. rewrite u16_mul_s16_r, u16_mul_s16_l, E1, Z.mul_1_r, u16_small by assumption. reflexivity. }
      destruct (Z.eqb_spec y 65535) as [E2|E2]; [|apply xs_skip].
      apply (xs_to MUL oNEG NEG D); [reflexivity|cbn; tauto|]. bin. rewrite E2. change (s16 65535) with (-1).
      replace (s16 v * -1) with (- s16 v) by lia. right; split; [reflexivity|discriminate].
    - destruct (Z.eqb_spec y 1) as [E1|E1]; [|apply xs_skip].
      apply (xs_drop DIV D). bin. right. rewrite E1. change (s16 1) with 1. cbn [Z.eqb]. rewrite Z.quot_1_r, u16_s16, u16_small by assumption. reflexivity.
    - destruct (Z.eqb_spec y 0) as [E|E]; [|apply xs_skip]. apply (xs_drop OR D). bin. rewrite E, Z.lor_0_r. right.
      rewrite u16_small by assumption. reflexivity.
    - destruct (Z.eqb_spec y 65535) as [E|E]; [|apply xs_skip]. apply (xs_drop AND D). bin. rewrite E. right.
      change 65535 with (Z.ones 16). rewrite Z.land_ones by lia. rewrite Z.mod_small by assumption. rewrite u16_small by assumption. reflexivity.
    - destruct (Z.eqb_spec y 1) as [E1|E1]; [|apply xs_skip].
      apply (xs_drop UMUL D). bin. unfold umul16. rewrite E1, Z.mul_1_r. destruct (int_ok v); [right|left; reflexivity].
      rewrite u16_u16, u16_small by assumption. reflexivity.
    - destruct (Z.eqb_spec y 1) as [E1|E1].
      { apply (xs_drop UDIV D). bin. rewrite E1. cbn [Z.eqb]. rewrite Z.div_1_r, u16_small by assumption. right. reflexivity. }
      destruct (Z.eqb_spec y 65535) as [E2|E2]; [|apply xs_skip].
      exfalso. apply Hbad. apply bb_udiv; [rewrite <- E2; exact Hy|exact Eo].
  Qed.

  (** an address, then a constant *)
  Lemma a_fold d r v' : ~ In (op a) marks -> decode_op8 (op o) = Some d -> loader a \/ ~ In (op a) mem_codes -> 
    loader (set_arg2 a r) \/ ~ In (op (set_arg2 a r)) mem_codes -> live (set_arg2 a r) = true ->
    (forall s0 k, (length k = 4)%nat -> 
       match pexec s0 a k with PF k1 => exists v, k1 = v :: tl k1 /\ (length k1 <= 5)%nat /\
          p8 d (y :: k1) = PF (v' v :: tl k1) /\ pexec s0 (set_arg2 a r) k = PF (v' v :: tl k1)
       | PStop => True | _ => False end) ->
    wclos [a; b; o] (code [set_arg2 a r; nop; nop]).
  Proof.
    intros Na D Ha Ha' L' H. codes. change (code []) with (@nil opType). (apply wclos_refines; [um|]).
    assert (G : forall s0 v0 v1 v2 v3, pmatch (prun s0 [a; b; o] [v0; v1; v2; v3]) (prun s0 [set_arg2 a r] [v0; v1; v2; v3])).
    { intros. cbn [prun]. specialize (H s0 [v0; v1; v2; v3] eq_refl).
      destruct (pexec s0 a [v0; v1; v2; v3]) as [k1| | |]; try contradiction; [|left; reflexivity].
      destruct H as (v & E1 & EL & E2 & E3). rewrite (pexec_push s0 b _ Wb Cb). unfold p_push.
      replace (length k1 <=? 7)%nat with true by (symmetry; apply Nat.leb_le; lia).
      rewrite (pexec_8 s0 o _ d D). fold y. rewrite E2, E3. right. split; [reflexivity|discriminate]. }
    assert (Nb : ~ In (op b) mem_codes) by (apply push_not_mem; exact Cb).
    assert (No : ~ In (op o) mem_codes) by (eapply dec8_not_mem; exact D).
    destruct Ha as [Ha|Ha]; destruct Ha' as [Ha'|Ha'].
    - apply (rule_load [a] [b; o] [set_arg2 a r] []); [wf|wf| |].
      + intros q Hq. cbn [app In] in Hq. destruct Hq as [<-|[<-|[]]]; assumption.
      + intros. apply G.
    - apply (rule_load [a] [b; o] [] [set_arg2 a r]); [wf|wf| |].
      + intros q Hq. cbn [app In] in Hq. destruct Hq as [<-|[<-|[<-|[]]]]; assumption.
      + intros. apply G.
    - apply (rule_load [] [a; b; o] [set_arg2 a r] []); [wf|wf| |].
      + intros q Hq. cbn [app In] in Hq. destruct Hq as [<-|[<-|[<-|[]]]]; assumption.
      + intros. apply G.
    - apply (rule_load [] [a; b; o] [] [set_arg2 a r]); [wf|wf| |].
      + intros q Hq. cbn [app In] in Hq. destruct Hq as [<-|[<-|[<-|[<-|[]]]]]; assumption.
      + intros. apply G.
  Qed.

  Lemma binary_address_ok : check_address a = true -> win_ok i [a; b; o] (binary_address i a b o).
  Proof.
    intros Caa. unfold binary_address. fold y.
    assert (Main : forall d r sg, decode_op8 (op o) = Some d -> (d = ADD /\ sg = 1 \/ d = SUB /\ sg = -1) -> r = u16 (arg2 a + sg * y) ->
      wclos [a; b; o] (code [set_arg2 a r; nop; nop]) /\ wf_op (set_arg2 a r)).
    { intros d r sg D Hd Er. pose proof Wy as Wy'. unfold word in Wy'.
      assert (Hr : 0 <= r < 65536) by (rewrite Er; apply u16_range).
      assert (Ha2 : 0 <= arg2 a < 65536) by apply Wa.
      assert (Hp8 : forall v k, p8 d (y :: v :: k) = PF (u16 (v + sg * y) :: k)).
      { intros. destruct Hd as [[-> ->]|[-> ->]]; bin; [rewrite u16_add_s16|rewrite u16_sub_s16]; do 2 f_equal; f_equal; lia. }
      assert (Na : ~ In (op a) marks) by um1.
      unfold check_address in Caa. apply one_of_In in Caa. cbn [In] in Caa.
      assert (Wr : wf_op (set_arg2 a r)).
      { destruct Wa as (W0 & W1 & W2 & W3 & W4). unfold set_arg2, wf_op. cbn [op arg1 arg2]. repeat split; try lia; try assumption.
        intros T. exfalso. revert T. clear - Caa. destruct Caa as [E|[E|[E|[E|[E|[E|[]]]]]]]; rewrite <- E; discriminate. }
      split; [|exact Wr].
      assert (Lr : live (set_arg2 a r) = true) by exact La.
      set (ya := arg2 a) in *. set (xa := arg1 a) in *.
      destruct Caa as [E|[E|[E|[E|[E|[E|[]]]]]]].
      - (* LA *) apply (a_fold d r (fun v => u16 (v + sg * y)) Na D); [left; right; rewrite <- E; cbn; tauto|left; right; cbn [set_arg2 op]; rewrite <- E; cbn; tauto|exact Lr|].
        intros s0 k Hk. rewrite (pexec_24 s0 a _ LA) by (rewrite <- E; reflexivity). rewrite (pexec_24 s0 (set_arg2 a r) _ LA) by (cbn [set_arg2 op]; rewrite <- E; reflexivity). change (arg2 (set_arg2 a r)) with r. change (arg1 (set_arg2 a r)) with (arg1 a). fold xa ya. cbn [p24 load24 arg2 p_opt]. unfold p_push. rewrite Hk. cbn [Nat.leb].
        eexists. split; [reflexivity|]. cbn [length tl]. split; [lia|]. rewrite Hp8. split; [reflexivity|].
        do 2 f_equal. rewrite !u16_u16, Er, u16_add_r, u16_add_l. f_equal. lia.
      - (* LAX *) apply (a_fold d r (fun v => u16 (v + sg * y)) Na D); [right; rewrite <- E; cbn; intuition discriminate|right; cbn [set_arg2 op]; rewrite <- E; cbn; intuition discriminate|exact Lr|].
        intros s0 k Hk. rewrite (pexec_24 s0 a _ LAX) by (rewrite <- E; reflexivity). rewrite (pexec_24 s0 (set_arg2 a r) _ LAX) by (cbn [set_arg2 op]; rewrite <- E; reflexivity). change (arg2 (set_arg2 a r)) with r. change (arg1 (set_arg2 a r)) with (arg1 a). fold xa ya. cbn [p24 arg2]. 
        destruct k as [|ix k]; [discriminate|]. cbn [p_index index24 p_opt length] in *. unfold p_push.
        replace (length k <=? 7)%nat with true by (symmetry; apply Nat.leb_le; lia).
        eexists. split; [reflexivity|]. cbn [length tl]. split; [lia|]. rewrite Hp8. split; [reflexivity|].
        do 2 f_equal. rewrite !u16_u16, Er. rewrite <- (u16_add_l (c_spb (cf s0) + u16 _) ix), u16_add_r, u16_add_l, u16_add_l. f_equal. lia.
      - (* LAS *)
        assert (Hsg : sign16 ya = sign16 r).
        { destruct (bool_dec (sign16 ya) (sign16 r)) as [Es|Es]; [exact Es|]. exfalso. apply Hbad.
          eapply (bb_las _ _ _ y r); [symmetry; exact E|exact Hy| |exact Es]. fold ya. rewrite !word16_iff.
          pose proof (dec8_inv _ _ D) as Eo.
          destruct Hd as [[-> ->]|[-> ->]]; [left|right]; (split; [exact Eo|]); rewrite Er; f_equal; lia. }
        apply (a_fold d r (fun v => u16 (v + sg * y)) Na D); [left; right; rewrite <- E; cbn; tauto|left; right; cbn [set_arg2 op]; rewrite <- E; cbn; tauto|exact Lr|].
        intros s0 k Hk. rewrite (pexec_32 s0 a _ LAS) by (rewrite <- E; reflexivity). rewrite (pexec_32 s0 (set_arg2 a r) _ LAS) by (cbn [set_arg2 op]; rewrite <- E; reflexivity). change (arg2 (set_arg2 a r)) with r. change (arg1 (set_arg2 a r)) with (arg1 a). fold xa ya. cbn [p32 load32 arg1 arg2].
        assert (Hs : exists q, s16 r = s16 ya + (sg * y + q * 65536)).
        { rewrite !s16_sign by (unfold word; lia). rewrite Hsg. unfold u16 in Er. exists (- ((ya + sg * y) / 65536)).
          destruct (sign16 r); lia. }
        destruct Hs as [q Hs].
        unfold load32. rewrite (get_base_shift s0 xa ya r (sg * y + q * 65536) Hs).
        2:{ rewrite !s16_sign by (unfold word; lia). rewrite Hsg. unfold sign16. 
            destruct (r <? 32768) eqn:Er1; unfold sign16 in Hsg; rewrite Er1 in Hsg; lia. }
        destruct (get_base s0 xa (s16 ya)) as [g|]; cbn [bindO p_opt]; [|exact I]. unfold p_push. rewrite Hk. cbn [Nat.leb].
        eexists. split; [reflexivity|]. cbn [length tl]. split; [lia|]. rewrite Hp8. split; [reflexivity|].
        do 2 f_equal. rewrite u16_u16, u16_add_l. apply (u16_congr _ _ q). lia.
      - (* LASX *) exfalso. apply Hbad. eapply bb_lasx; [symmetry; exact E|exact Hy|].
        pose proof (dec8_inv _ _ D) as Eo. destruct Hd as [[-> _]|[-> _]]; rewrite Eo; cbn; tauto.
      - (* LAC *) apply (a_fold d r (fun v => u16 (v + sg * y)) Na D); [left; right; rewrite <- E; cbn; tauto|left; right; cbn [set_arg2 op]; rewrite <- E; cbn; tauto|exact Lr|].
        intros s0 k Hk. rewrite (pexec_24 s0 a _ LAC) by (rewrite <- E; reflexivity). rewrite (pexec_24 s0 (set_arg2 a r) _ LAC) by (cbn [set_arg2 op]; rewrite <- E; reflexivity). change (arg2 (set_arg2 a r)) with r. change (arg1 (set_arg2 a r)) with (arg1 a). fold xa ya. cbn [p24 load24 arg2 p_opt]. unfold p_push. rewrite Hk. cbn [Nat.leb].
        eexists. split; [reflexivity|]. cbn [length tl]. split; [lia|]. rewrite Hp8. split; [reflexivity|].
        do 2 f_equal. rewrite !u16_u16, Er, !u16_add_l. f_equal. lia.
      - (* LAR *) apply (a_fold d r (fun v => u16 (v + sg * y)) Na D); [right; rewrite <- E; cbn; intuition discriminate|right; cbn [set_arg2 op]; rewrite <- E; cbn; intuition discriminate|exact Lr|].
        intros s0 k Hk. rewrite (pexec_24 s0 a _ LAR) by (rewrite <- E; reflexivity). rewrite (pexec_24 s0 (set_arg2 a r) _ LAR) by (cbn [set_arg2 op]; rewrite <- E; reflexivity). change (arg2 (set_arg2 a r)) with r. change (arg1 (set_arg2 a r)) with (arg1 a). fold xa ya. cbn [p24 arg2]. unfold p_push. rewrite Hk. cbn [Nat.leb].
        eexists. split; [reflexivity|]. cbn [length tl]. split; [lia|]. rewrite Hp8. split; [reflexivity|].
        do 2 f_equal. rewrite Er, !u16_add_l. f_equal. lia. }
    destruct (decode_op8 (op o)) as [d|] eqn:D; [|apply xs_skip].
    destruct d; try apply xs_skip.
    - destruct (Main ADD (u16 (arg2 a + y)) 1 eq_refl (or_introl (conj eq_refl eq_refl)) ltac:(f_equal; lia)) as [A B].
      split; [reflexivity|]. split; [wf|]. split; [cbn; lia|exact A].
    - destruct (Main SUB (u16 (arg2 a - y)) (-1) eq_refl (or_intror (conj eq_refl eq_refl)) ltac:(f_equal; lia)) as [A B].
      split; [reflexivity|]. split; [wf|]. split; [cbn; lia|exact A].
  Qed.
  End Any.

  Theorem binary_step_ok : win_ok i [a; b; o] (binary_step i a b o).
  Proof.
    unfold binary_step. destruct (check_push a && check_push b && check_binary o) eqn:E1.
    { apply binary_consts_ok; [destruct (check_push a); [reflexivity|discriminate]|].
      destruct (check_push a), (check_push b); try discriminate; reflexivity. }
    destruct (check_push a && one_of [oLDS; oLDSB; oULDSB; oLAS; oLAC; oLAR] b) eqn:E2.
    { apply andb_prop in E2. destruct E2 as [Ca Hb]. apply one_of_In in Hb.
      assert (Hb' : In (op b) [oLDS; oLDSB; oULDSB; oLAS; oLAC]).
      { cbn [In] in *. destruct Hb as [H|[H|[H|[H|[H|[H|[]]]]]]]; try tauto.
        exfalso. apply Hbad. eapply bb_lar; [apply check_pushes; eassumption|auto]. }
      apply binary_frame_ok; [exact Ca| |exact Hb']. cbn [In direct] in *. tauto. }
    destruct (check_push b && check_binary o) eqn:E3.
    { apply andb_prop in E3. destruct E3 as [Cb Co]. destruct (check_address a) eqn:Ca.
      - apply binary_address_ok; assumption.
      - apply binary_any_ok; assumption. }
    destruct (check_push a && check_load b && check_binary o) eqn:E4.
    { apply andb_prop in E4. destruct E4 as [E4 Co]. apply andb_prop in E4. destruct E4 as [Ca Cl].
      rewrite Ca in *. cbn [andb] in *. unfold check_load in Cl. apply one_of_In in Cl.
      assert (Hd : In (op b) direct).
      { rewrite Co, andb_true_r in *. 
        destruct (check_push b) eqn:Cp; [discriminate|].
        assert (N : ~ In (op b) [oPUSH; oPUSHB; oUPUSHB]) by (intros H; apply one_of_In in H; unfold check_push in Cp; congruence).
        assert (N2 : op b <> oLAR) by (intros H; apply Hbad; eapply bb_lar; [apply check_pushes; eassumption|exact H]).
        cbn [In direct] in *. intuition congruence. }
      apply binary_swap_ok; assumption. }
    destruct (Z.eqb_spec (op a) oNEG) as [Ea|Ea]; [|apply stay3].
    destruct (Z.eqb_spec (op b) oADD) as [Eb|Eb]; [|apply stay3].
    assert (Da : decode_op8 (op a) = Some NEG) by (rewrite Ea; reflexivity).
    assert (Db : decode_op8 (op b) = Some ADD) by (rewrite Eb; reflexivity).
    assert (Es : set_op b oSUB = mkOp oSUB 0 0) by (rewrite (wf_8 b _ Wb Db); reflexivity). rewrite Es.
    split; [reflexivity|]. split; [wf; apply wf_op8; cbn; tauto|]. split; [cbn; lia|].
    cbn [length firstn]. change (code [nop; mkOp oSUB 0 0]) with [mkOp oSUB 0 0]. (apply wclos_refines; [um|]). apply rule_pure.
    { intros q Hq. cbn [app In] in Hq. destruct Hq as [<-|[<-|[<-|[]]]]; [eapply dec8_not_mem; eassumption|eapply dec8_not_mem; eassumption|cbn; intuition discriminate]. }
    intros. cbn [prun]. rewrite (pexec_8 s0 a _ _ Da). bin. rewrite (pexec_8 s0 b _ _ Db), (pexec_8 s0 (mkOp oSUB 0 0) _ SUB eq_refl). bin.
    right. split; [|discriminate]. do 2 f_equal. rewrite u16_add_s16, u16_sub_s16, u16_add_r.
    destruct (proj1 (u16_eq_iff (s16 v0) v0) (u16_s16 v0)) as [k1 E]. apply (u16_congr _ _ (- k1)). lia.
  Qed.
End Step.

Lemma skipn_adjacent3 (v : list opType) i a b o q : skipn i v = a :: b :: o :: q -> adjacent3 v a b o.
Proof. intros E. exists (firstn i v), q. rewrite <- E. symmetry. apply firstn_skipn. Qed.

Lemma Forall_skipn {A} (P : A -> Prop) i l w : Forall P l -> skipn i l = w -> Forall P w.
Proof. intros H E. rewrite <- E. rewrite <- (firstn_skipn i l) in H. apply Forall_app in H. apply H. Qed.

Theorem binary_table t i : Forall wf_op t -> (forall a b o, adjacent3 (visible t) a b o -> ~ binary_bad a b o) ->
  table_step binary_body t i <> Broken /\
  forall t' nx ch, table_step binary_body t i = Next t' nx ch -> preserved t t' /\ Forall wf_op t'.
Proof.
  intros W H. apply table_step_ok; [exact W|]. intros r E. unfold binary_body in E.
  destruct (skipn i (visible t)) as [|a [|b [|o q]]] eqn:Es; try discriminate. injection E as <-.
  pose proof (Forall_skipn _ _ _ _ (visible_wf t W) Es) as Wv.
  pose proof (Forall_skipn _ _ _ _ (visible_live t) Es) as Lv.
  inversion_clear Wv as [|? ? Wa Wv']. inversion_clear Wv' as [|? ? Wb Wv'']. inversion_clear Wv'' as [|? ? Wo _].
  inversion_clear Lv as [|? ? La Lv']. inversion_clear Lv' as [|? ? Lb Lv'']. inversion_clear Lv'' as [|? ? Lo _].
  pose proof (Forall_skipn _ _ _ _ (visible_inside t) Es) as Mv.
  inversion_clear Mv as [|? ? Ma Mv']. inversion_clear Mv' as [|? ? Mb Mv'']. inversion_clear Mv'' as [|? ? Mo _].
  apply (win_rout i [a; b; o]); [exists q; exact Es|discriminate|]. apply binary_step_ok; try assumption.
  apply H. eapply skipn_adjacent3; exact Es.
Qed.
