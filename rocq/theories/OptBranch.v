(** popt_BranchOptimize *)

From Coq Require Import ZArith Bool List Lia ZifyBool.
From Verif Require Import Words State Opcodes SetModel LongModel Machine WordLemmas StateLemmas VmSpec VmProofs MemProofs
  EncodeSpec OptSpec OptStack OptPure OptStep OptFine OptUnary OptTable OptExcept OptUnaryStep OptBinary PoptModel.
Import ListNotations.
Open Scope Z_scope.
Ltac Zify.zify_post_hook ::= Z.div_mod_to_equations.

Lemma plain24 z d x y : decode_op24 z = Some d -> In z jump_codes -> ~ In (op (mkOp z x y)) mem_codes.
Proof.
  intros D H. cbn [op]. cbn [jump_codes In] in H. repeat (destruct H as [<-|H]; [cbn; intuition discriminate|]). contradiction.
Qed.

Lemma live_jump z x y : In z jump_codes -> live (mkOp z x y) = true.
Proof. intros H. cbn [jump_codes In] in H. repeat (destruct H as [<-|H]; [reflexivity|]). contradiction. Qed.

(** Results of comparisons *)
Lemma s16_pbool f : s16 (u16 (pbool f)) = if f then -1 else 0.
Proof. destruct f; reflexivity. Qed.
Lemma not_pbool f : u16 (Z.lnot (u16 (pbool f))) = u16 (pbool (negb f)).
Proof. destruct f; reflexivity. Qed.

Definition cmp_codes : list op8 := [EQU; NEQ; LT; GTE; GT; LTE; ULT; UGTE; UGT; ULTE].
Definition cmpz_codes : list op8 := [EQUZ; NEQZ; LTZ; GTEZ; GTZ; LTEZ].
Definition negated (d : op8) : op8 :=
  match d with
  | EQU => NEQ | NEQ => EQU | LT => GTE | GTE => LT | GT => LTE | LTE => GT
  | ULT => UGTE | UGTE => ULT | UGT => ULTE | ULTE => UGT
  | EQUZ => NEQZ | NEQZ => EQUZ | LTZ => GTEZ | GTEZ => LTZ | GTZ => LTEZ | LTEZ => GTZ
  | _ => d
  end.
Definition cmp_jump (d : op8) : op24 :=
  match d with
  | EQU => JEQU | NEQ => JNEQ | LT => JLT | GTE => JGTE | GT => JGT | LTE => JLTE
  | ULT => JULT | UGTE => JUGTE | UGT => JUGT | ULTE => JULTE
  | EQUZ => JEQUZ | NEQZ => JNEQZ | LTZ => JLTZ | GTEZ => JGTEZ | GTZ => JGTZ | _ => JLTEZ
  end.

(** a comparison computes a condition; the matching jump tests it *)
Definition cond2 (d : op8) (x y : Z) : bool :=
  match d with
  | EQU => s16 y =? s16 x | NEQ => negb (s16 y =? s16 x)
  | LT => s16 x <? s16 y | GTE => s16 y <=? s16 x | GT => s16 y <? s16 x | LTE => s16 x <=? s16 y
  | ULT => x <? y | UGTE => y <=? x | UGT => y <? x | ULTE => x <=? y
  | EQUZ => s16 y =? 0 | NEQZ => negb (s16 y =? 0) | LTZ => s16 y <? 0 | GTEZ => 0 <=? s16 y
  | GTZ => 0 <? s16 y | _ => s16 y <=? 0
  end.
Definition rest2 (d : op8) (x : Z) (k : list Z) : list Z := if existsb (fun c => match c, d with
    | EQUZ, EQUZ | NEQZ, NEQZ | LTZ, LTZ | GTEZ, GTEZ | GTZ, GTZ | LTEZ, LTEZ => true | _, _ => false end) cmpz_codes then x :: k else k.

Lemma cond_cmp d x y k : In d (cmp_codes ++ cmpz_codes) -> p8 d (y :: x :: k) = PF (u16 (pbool (cond2 d x y)) :: rest2 d x k).
Proof.
  intros H. cbn [cmp_codes cmpz_codes app In] in H.
  repeat (destruct H as [<-|H]; [reflexivity|]). contradiction.
Qed.
Lemma cond_jump d s0 l x y k : In d (cmp_codes ++ cmpz_codes) ->
  p24 s0 (cmp_jump d) l l (y :: x :: k) = if cond2 d x y then PJ l (rest2 d x k) else PF (rest2 d x k).
Proof.
  intros H. cbn [cmp_codes cmpz_codes app In] in H.
  repeat (destruct H as [<-|H]; [cbn [cmp_jump p24 p_sj2 p_j2 p_jz]; unfold p_sj2, p_j2, p_jz, cond2; rewrite ?(Z.eqb_sym (s16 x)); reflexivity|]). contradiction.
Qed.
Lemma cond_neg d x y : In d (cmp_codes ++ cmpz_codes) -> cond2 (negated d) x y = negb (cond2 d x y).
Proof.
  intros H. cbn [cmp_codes cmpz_codes app In] in H.
  repeat (destruct H as [<-|H]; [cbn [negated cond2]; rewrite ?negb_involutive; try reflexivity; lia|]). contradiction.
Qed.
Lemma rest_neg d x k : In d (cmp_codes ++ cmpz_codes) -> rest2 (negated d) x k = rest2 d x k.
Proof. intros H. cbn [cmp_codes cmpz_codes app In] in H. repeat (destruct H as [<-|H]; [reflexivity|]). contradiction. Qed.
Lemma neg_in d : In d (cmp_codes ++ cmpz_codes) -> In (negated d) (cmp_codes ++ cmpz_codes).
Proof. intros H. cbn [cmp_codes cmpz_codes app In] in H. repeat (destruct H as [<-|H]; [cbn; tauto|]). contradiction. Qed.
Lemma jump_in d : In (dec24_code (cmp_jump d)) jump_codes.
Proof. destruct d; cbn; tauto. Qed.
Lemma dec24_dec d : decode_op24 (dec24_code d) = Some d.
Proof. destruct d; reflexivity. Qed.
Lemma dec8_dec d : decode_op8 (dec8_code d) = Some d.
Proof. destruct d; reflexivity. Qed.

Section Step.
  Variables (i : nat) (a b : opType).
  Hypothesis Wa : wf_op a.
  Hypothesis Wb : wf_op b.
  Hypothesis La : live a = true.
  Hypothesis Lb : live b = true.
  Hypothesis Ma : inside a.

  Lemma stay2 : win_ok i [a; b] (stay i).
  Proof. split; [reflexivity|]. split; [constructor|]. split; [cbn; lia|]. apply wclos_refl. Qed.

  (** replacing [a; b] by a jump *)
  Lemma br_rule_if (P : st -> Prop) d z dz : decode_op8 (op a) = Some d -> decode_op24 z = Some dz -> In z jump_codes ->
    ~ In (op b) mem_codes ->
    (forall s0 v0 v1 v2 v3, P s0 -> top s0 s0 [v0; v1; v2; v3] -> word v0 -> word v1 -> word v2 -> word v3 ->
      pmatch (prun s0 [a; b] [v0; v1; v2; v3]) (p24 s0 dz (arg2 b) (arg2 b) [v0; v1; v2; v3])) ->
    refines_if P [a; b] [mkOp z 0 (arg2 b)].
  Proof.
    intros D Dz Hz Hb H. apply rule_pure_if.
    { intros q Hq. cbn [app In] in Hq. destruct Hq as [<-|[<-|[<-|[]]]]; [eapply dec8_not_mem; exact D|exact Hb|eapply plain24; eassumption]. }
    intros. replace (prun s0 [mkOp z 0 (arg2 b)] [v0; v1; v2; v3]) with (p24 s0 dz (arg2 b) (arg2 b) [v0; v1; v2; v3]).
    - apply H; assumption.
    - change (arg2 b) with (arg2 (mkOp z 0 (arg2 b))) at 1 2. cbn [prun].
      rewrite (pexec_24 s0 (mkOp z 0 (arg2 b)) _ dz Dz). destruct (p24 _ _ _ _ _); reflexivity.
  Qed.

  Lemma jump_ok z d : decode_op8 (op a) = Some d -> In z jump_codes -> In (op b) jump_codes -> refines [a; b] [mkOp z 0 (arg2 b)] ->
    win_ok i [a; b] (br_to i b z).
  Proof.
    intros Da Hz Hb R. unfold br_to.
    assert (Hl : 0 <= arg2 b < 65536) by apply Wb.
    assert (Eb : arg1 b = 0).
    { apply Wb. cbn [jump_codes In] in Hb. repeat (destruct Hb as [<-|Hb]; [reflexivity|]). contradiction. }
    unfold set_op. rewrite Eb. split; [reflexivity|].
    split; [constructor; [apply wf_nop|constructor; [apply wf_jump; assumption|constructor]]|].
    split; [cbn; lia|]. rewrite !code_cons. change (live nop) with false. rewrite (live_jump z 0 (arg2 b) Hz).
    (apply wclos_refines; [um|]). exact R.
  Qed.

  Lemma br_cmp_ok d : decode_op8 (op a) = Some d -> In d (cmp_codes ++ cmpz_codes) ->
    win_ok i [a; b] (br_cmp i a b (dec8_code (negated d)) (dec24_code (cmp_jump (negated d))) (dec24_code (cmp_jump d))).
  Proof.
    intros D Hd. unfold br_cmp. pose proof (neg_in d Hd) as Hn.
    destruct (Z.eqb_spec (op b) oNOT) as [Eb|Eb].
    { unfold br_first. assert (Db : decode_op8 (op b) = Some NOT) by (rewrite Eb; reflexivity).
      assert (Es : set_op a (dec8_code (negated d)) = mkOp (dec8_code (negated d)) 0 0) by (rewrite (wf_8 a d Wa D); reflexivity).
      rewrite Es. split; [reflexivity|].
      split; [constructor; [apply wf_op8|constructor; [apply wf_nop|constructor]]|].
      { clear - Hn. cbn [cmp_codes cmpz_codes app In] in Hn. repeat (destruct Hn as [<-|Hn]; [cbn; tauto|]). contradiction. }
      split; [cbn; lia|].
      replace (code [mkOp (dec8_code (negated d)) 0 0; nop]) with [mkOp (dec8_code (negated d)) 0 0].
      2:{ clear - Hn. cbn [cmp_codes cmpz_codes app In] in Hn. repeat (destruct Hn as [<-|Hn]; [reflexivity|]). contradiction. }
      assert (Nn : ~ In (op (mkOp (dec8_code (negated d)) 0 0)) marks).
      { clear - Hn. cbn [cmp_codes cmpz_codes app In] in Hn. repeat (destruct Hn as [<-|Hn]; [apply unmarked_eqb; reflexivity|]). contradiction. }
      (apply wclos_refines; [um|]). apply rule_pure.
      { intros q Hq. cbn [length firstn app In] in Hq. destruct Hq as [<-|[<-|[<-|[]]]]; [eapply dec8_not_mem; exact D|eapply dec8_not_mem; exact Db|].
        eapply dec8_not_mem. cbn [op]. apply dec8_dec. }
      intros. cbn [length firstn prun]. rewrite (pexec_8 s0 a _ d D), (cond_cmp d v1 v0 _ Hd).
      rewrite (pexec_8 s0 b _ NOT Db), (pexec_8 s0 (mkOp _ 0 0) _ (negated d) (dec8_dec _)), (cond_cmp _ v1 v0 _ Hn).
      cbn [p8 p_un]. rewrite not_pbool, (cond_neg d v1 v0 Hd), (rest_neg d _ _ Hd). right. split; [reflexivity|discriminate]. }
    destruct (Z.eqb_spec (op b) oJEQUZ) as [Eb1|Eb1].
    { assert (Db : decode_op24 (op b) = Some JEQUZ) by (rewrite Eb1; reflexivity).
      apply (jump_ok _ d); [exact D|apply jump_in|rewrite Eb1; cbn; tauto|].
      apply (br_rule_if _ d _ (cmp_jump (negated d)) D (dec24_dec _)); [apply jump_in|rewrite Eb1; cbn; intuition discriminate|].
      intros. cbn [prun]. rewrite (pexec_8 s0 a _ d D), (cond_cmp d v1 v0 _ Hd), (pexec_24 s0 b _ JEQUZ Db).
      rewrite (cond_jump _ s0 _ v1 v0 _ Hn), (cond_neg d v1 v0 Hd), (rest_neg d _ _ Hd). cbn [p24 p_jz]. rewrite s16_pbool.
      destruct (cond2 d v1 v0); cbn [negb Z.eqb]; right; (split; [reflexivity|discriminate]). }
    destruct (Z.eqb_spec (op b) oJNEQZ) as [Eb2|Eb2]; [|apply stay2].
    assert (Db : decode_op24 (op b) = Some JNEQZ) by (rewrite Eb2; reflexivity).
    apply (jump_ok _ d); [exact D|apply jump_in|rewrite Eb2; cbn; tauto|].
    apply (br_rule_if _ d _ (cmp_jump d) D (dec24_dec _)); [apply jump_in|rewrite Eb2; cbn; intuition discriminate|].
    intros. cbn [prun]. rewrite (pexec_8 s0 a _ d D), (cond_cmp d v1 v0 _ Hd), (pexec_24 s0 b _ JNEQZ Db).
    rewrite (cond_jump _ s0 _ v1 v0 _ Hd). cbn [p24 p_jz]. rewrite s16_pbool.
    destruct (cond2 d v1 v0); cbn [negb Z.eqb]; right; (split; [reflexivity|discriminate]).
  Qed.

  Theorem branch_step_ok : ~ branch_bad a b -> win_ok i [a; b] (branch_step i a b).
  Proof.
    intros Hbad. unfold branch_step. destruct (decode_op8 (op a)) as [d|] eqn:D; [|apply stay2].
    pose proof (dec8_inv _ _ D) as Ea.
    destruct d; try apply stay2; try (apply (br_cmp_ok _ D); cbn; tauto).
    - (* NEG *)
      assert (Hn : ~ In (op b) [oJLTZ; oJGTEZ; oJGTZ; oJLTEZ]) by (intros H; apply Hbad; apply rb_neg; assumption).
      destruct (Z.eqb_spec (op b) oJLTZ) as [E|E]; [exfalso; apply Hn; rewrite E; cbn; tauto|].
      destruct (Z.eqb_spec (op b) oJGTEZ) as [E1|E1]; [exfalso; apply Hn; rewrite E1; cbn; tauto|].
      destruct (Z.eqb_spec (op b) oJGTZ) as [E2|E2]; [exfalso; apply Hn; rewrite E2; cbn; tauto|].
      destruct (Z.eqb_spec (op b) oJLTEZ) as [E3|E3]; [exfalso; apply Hn; rewrite E3; cbn; tauto|]. apply stay2.
    - assert (Hn : ~ In (op b) [oJEQUZ; oJNEQZ]) by (intros H; apply Hbad; apply rb_not; assumption).
      destruct (Z.eqb_spec (op b) oJEQUZ) as [E|E]; [exfalso; apply Hn; rewrite E; cbn; tauto|].
      destruct (Z.eqb_spec (op b) oJNEQZ) as [E1|E1]; [exfalso; apply Hn; rewrite E1; cbn; tauto|]. apply stay2.
  Qed.

  (** The exceptions are right for Boolean values, and for values which have a negation. *)
  Lemma not_jump_if : op a = oNOT -> In (op b) [oJEQUZ; oJNEQZ] ->
    refines_if (fun s => rd s (sp s / 2) = Some 0 \/ rd s (sp s / 2) = Some 65535) [a; b]
      [mkOp (if op b =? oJEQUZ then oJNEQZ else oJEQUZ) 0 (arg2 b)].
  Proof.
    intros Ea Hb. assert (D : decode_op8 (op a) = Some NOT) by (rewrite Ea; reflexivity).
    cbn [In] in Hb. destruct Hb as [Eb|[Eb|[]]]; rewrite <- Eb.
    - change (oJEQUZ =? oJEQUZ) with true. cbv iota.
      assert (Db : decode_op24 (op b) = Some JEQUZ) by (rewrite <- Eb; reflexivity).
      apply (br_rule_if _ NOT oJNEQZ JNEQZ D eq_refl); [cbn; tauto|rewrite <- Eb; cbn; intuition discriminate|].
      intros. cbn [prun]. rewrite (pexec_8 s0 a _ NOT D). cbn [p8 p_un]. rewrite (pexec_24 s0 b _ JEQUZ Db). cbn [p24 p_jz].
      pose proof (top_words _ _ _ H0 0%nat v0 eq_refl) as Ht. rewrite Z.sub_0_r in Ht. rewrite Ht in H.
      destruct H as [H|H]; injection H as ->; right; (split; [reflexivity|discriminate]).
    - change (oJNEQZ =? oJEQUZ) with false. cbv iota.
      assert (Db : decode_op24 (op b) = Some JNEQZ) by (rewrite <- Eb; reflexivity).
      apply (br_rule_if _ NOT oJEQUZ JEQUZ D eq_refl); [cbn; tauto|rewrite <- Eb; cbn; intuition discriminate|].
      intros. cbn [prun]. rewrite (pexec_8 s0 a _ NOT D). cbn [p8 p_un]. rewrite (pexec_24 s0 b _ JNEQZ Db). cbn [p24 p_jz].
      pose proof (top_words _ _ _ H0 0%nat v0 eq_refl) as Ht. rewrite Z.sub_0_r in Ht. rewrite Ht in H.
      destruct H as [H|H]; injection H as ->; right; (split; [reflexivity|discriminate]).
  Qed.

  Lemma neg_jump_if d : op a = oNEG -> decode_op24 (op b) = Some d -> In d [JLTZ; JGTEZ; JGTZ; JLTEZ] ->
    refines_if (fun s => rd s (sp s / 2) <> Some 32768) [a; b]
      [mkOp (dec24_code match d with JLTZ => JGTZ | JGTEZ => JLTEZ | JGTZ => JLTZ | _ => JGTEZ end) 0 (arg2 b)].
  Proof.
    intros Ea Db Hd. assert (D : decode_op8 (op a) = Some NEG) by (rewrite Ea; reflexivity). pose proof (dec24_inv _ _ Db) as Eb.
    apply (br_rule_if _ NEG _ _ D (dec24_dec _)).
    { cbn [In] in Hd. destruct Hd as [<-|[<-|[<-|[<-|[]]]]]; cbn; tauto. }
    { rewrite Eb. cbn [In] in Hd. destruct Hd as [<-|[<-|[<-|[<-|[]]]]]; cbn; intuition discriminate. }
    intros. cbn [prun]. rewrite (pexec_8 s0 a _ NEG D). cbn [p8 p_un]. rewrite (pexec_24 s0 b _ d Db).
    pose proof (top_words _ _ _ H0 0%nat v0 eq_refl) as Ht. rewrite Z.sub_0_r in Ht. rewrite Ht in H.
    assert (Hv : v0 <> 32768) by congruence.
    assert (Es : s16 (u16 (- s16 v0)) = - s16 v0).
    { rewrite s16_u16. apply s16_small. pose proof (s16_range v0). unfold word in *.
      assert (s16 v0 <> -32768). { intros E. apply Hv. apply s16_inj; try lia. rewrite E. reflexivity. } lia. }
    cbn [In] in Hd. destruct Hd as [<-|[<-|[<-|[<-|[]]]]]; cbn [p24 p_jz]; rewrite Es;
      [ replace (- s16 v0 <? 0) with (0 <? s16 v0) by lia; destruct (0 <? s16 v0)
      | replace (0 <=? - s16 v0) with (s16 v0 <=? 0) by lia; destruct (s16 v0 <=? 0)
      | replace (0 <? - s16 v0) with (s16 v0 <? 0) by lia; destruct (s16 v0 <? 0)
      | replace (- s16 v0 <=? 0) with (0 <=? s16 v0) by lia; destruct (0 <=? s16 v0) ];
      right; (split; [reflexivity|discriminate]).
  Qed.
End Step.

Theorem branch_table t i : Forall wf_op t -> (forall a b, adjacent (visible t) a b -> ~ branch_bad a b) ->
  table_step branch_body t i <> Broken /\
  forall t' nx ch, table_step branch_body t i = Next t' nx ch -> preserved t t' /\ Forall wf_op t'.
Proof.
  intros W H. apply table_step_ok; [exact W|]. intros r E. unfold branch_body in E.
  destruct (skipn i (visible t)) as [|a [|b q]] eqn:Es; try discriminate. injection E as <-.
  pose proof (Forall_skipn _ _ _ _ (visible_wf t W) Es) as Wv.
  pose proof (Forall_skipn _ _ _ _ (visible_live t) Es) as Lv.
  inversion_clear Wv as [|? ? Wa Wv']. inversion_clear Wv' as [|? ? Wb _].
  inversion_clear Lv as [|? ? La Lv']. inversion_clear Lv' as [|? ? Lb _].
  apply (win_rout i [a; b]); [exists q; exact Es|discriminate|].
  pose proof (Forall_skipn _ _ _ _ (visible_inside t) Es) as Mv. inversion_clear Mv as [|? ? Ma _].
  apply branch_step_ok; try assumption.
  apply H. eapply skipn_adjacent; exact Es.
Qed.
