(** Indexed store followed by an indexed load of a frame variable. *)

From Coq Require Import ZArith Bool List Lia ZifyBool.
From Verif Require Import Words State Opcodes SetModel LongModel Machine WordLemmas StateLemmas VmSpec VmProofs MemProofs MultiProofs.
Import ListNotations.
Open Scope Z_scope.
Ltac Zify.zify_post_hook ::= Z.div_mod_to_equations.

Lemma reaches_other s s' k : forall f g,
  (forall j h, (j < k)%nat -> reaches s f j h -> rd s' (h / 2) = rd s (h / 2)) ->
  reaches s f k g -> reaches s' f k g.
Proof.
  induction k; intros f g H R; inversion R; subst.
  - constructor.
  - econstructor.
    + unfold slink in *. rewrite (H O f); [eassumption|lia|constructor].
    + apply IHk; [|assumption]. intros j h Hj Hr. apply (H (S j) h); [lia|]. econstructor; eassumption.
Qed.

Lemma only_stored_rd s s' byte a v i : cf s' = cf s -> c_ssz (cf s) mod 2 = 0 ->
  only_stored s s' byte a v -> i <> a / 2 -> rd s' i = rd s i.
Proof.
  intros Hc He H Hi. destruct byte; cbn [only_stored] in H.
  - destruct H as [_ H]. pose proof (H (2 * i) ltac:(lia)) as A. pose proof (H (2 * i + 1) ltac:(lia)) as B.
    unfold rd, in_word, rdb, in_byte in *. rewrite Hc in *.
    destruct ((0 <=? i) && (i <? c_ssz (cf s) / 2)) eqn:E; [|reflexivity].
    replace ((0 <=? 2 * i) && (2 * i <? c_ssz (cf s))) with true in A by lia.
    replace ((0 <=? 2 * i + 1) && (2 * i + 1 <? c_ssz (cf s))) with true in B by lia.
    assert (A' : byte_of (mem s') (2 * i) = byte_of (mem s) (2 * i)) by congruence.
    assert (B' : byte_of (mem s') (2 * i + 1) = byte_of (mem s) (2 * i + 1)) by congruence.
    rewrite !word_of_bytes, A', B'. reflexivity.
  - apply H. exact Hi.
Qed.

Lemma indexed_store_load cs cl w s lvl off idx a v x :
  In (cs, cl, w) indexed_pairs ->
  4 <= sp s < c_ssz (cf s) -> c_ssz (cf s) <= 65536 -> c_ssz (cf s) mod 2 = 0 ->
  tos s 0 = Some v -> tos s 1 = Some idx ->
  frame_ea s lvl off idx a -> target_ok s (match w with Word => false | _ => true end) a ->
  (forall z, signed16 off z -> 0 <= z \/ z + idx < 0) ->
  a / 2 <> sp s / 2 - 1 -> 
  (forall j f, (j < Z.to_nat lvl)%nat -> reaches s (fp s) j f -> f / 2 <> a / 2) ->
  (forall j f, (j < Z.to_nat lvl)%nat -> reaches s (fp s) j f -> f / 2 <> sp s / 2 - 1) ->
  exists s' r, exec_list [mkOp cs lvl off; mkOp oPUSH x idx; mkOp cl lvl off] s = Ok s' /\
    tos s' 0 = Some r /\ truncated w v r.
Proof.
  intros Hin Hsp Hss Hev Hv Hi Hea Ht Hz Ha Hc1 Hc2.
  set (byte := match w with Word => false | _ => true end) in *.
  assert (Hst : In (cs, 4, byte, true, fun s imm8 imm16 idx a => frame_ea s imm8 imm16 idx a) store_ops).
  { cbn in Hin. destruct Hin as [E|[E|[E|[]]]]; injection E as <- <- <-; subst byte;
      cbn [In store_ops]; tauto. }
  assert (Hl : In (cl, w) frame_loadx_ops).
  { cbn in Hin. destruct Hin as [E|[E|[E|[]]]]; injection E as <- <- <-; cbn; tauto. }
  destruct (store_ops_correct cs 4 byte true _ s lvl off idx a v Hst ltac:(lia) Hv (fun _ => Hi) Hea Ht)
    as (s1 & E1 & ST & (C1 & C2 & C3 & C4 & C5) & SP1 & _).
  rewrite Z.mod_small in SP1 by lia.
  assert (Hidx : 0 <= idx < 65536) by (eapply tos_range; exact Hi).
  assert (Hvr : 0 <= v < 65536) by (eapply tos_range; exact Hv).
  destruct (push_insn s1 x idx) as (s2 & E2 & ((D1 & D2 & D3 & D4 & D5) & SP2 & T2 & M2) & _).
  { unfold room. rewrite C1. lia. }
  { lia. }
  cbn [length] in SP2, M2. specialize (T2 O idx eq_refl).
  assert (Cf2 : cf s2 = cf s) by congruence.
  assert (RD : forall i, i <> a / 2 -> i <> sp s / 2 - 1 -> rd s2 i = rd s i).
  { intros i A B. rewrite M2 by lia. apply (only_stored_rd s s1 byte a v); assumption. }
  assert (RDa : rd s2 (a / 2) = rd s1 (a / 2)) by (apply M2; lia).
  assert (EA2 : frame_ea s2 lvl off idx a).
  { destruct Hea as (g & z & R & S & W). exists g, z. split; [|split; assumption].
    replace (fp s2) with (fp s) by congruence.
    eapply reaches_other; [|exact R]. intros j h Hj Hr. apply RD; [eapply Hc1|eapply Hc2]; eassumption. }
  set (r := match w with Word => v | UByte => v mod 256
                    | SByte => (if v mod 256 <? 128 then v mod 256 else v mod 256 - 256) mod 65536 end).
  assert (EL : element s2 w a r /\ truncated w v r).
  { destruct w; cbn [element truncated only_stored] in *; subst byte r; cbn beta iota in *.
    - destruct ST as [ST _]. split; [|reflexivity]. rewrite RDa. exact ST.
    - destruct ST as [ST _]. rewrite (rd_rdb' s1 s2 a) by (try congruence; rewrite C1; assumption).
      split; [exists (v mod 256); split; [exact ST|]|]; (split; [lia|]).
      + exists (- ((if v mod 256 <? 128 then v mod 256 else v mod 256 - 256) / 65536)).
        rewrite Z.mod_eq by lia. lia.
      + exists (- ((if v mod 256 <? 128 then v mod 256 else v mod 256 - 256) / 65536)).
        rewrite Z.mod_eq by lia. lia.
    - destruct ST as [ST _]. rewrite (rd_rdb' s1 s2 a) by (try congruence; rewrite C1; assumption).
      split; [exact ST|reflexivity]. }
  destruct EL as [EL TR].
  destruct (frame_loadx_correct cl w s2 lvl off idx a r Hl) as (s3 & E3 & (SR & SP3 & T3 & _) & _); try assumption.
  { unfold tos. rewrite <- T2. f_equal. lia. }
  exists s3, r. cbn [exec_list]. rewrite E1, E2, E3. split; [reflexivity|]. split; [|exact TR].
  specialize (T3 O r eq_refl). cbn [length] in SP3. unfold tos. rewrite <- T3. f_equal. lia.
Qed.
