(** Counterexamples and consequences used by PropsVm. *)

From Coq Require Import ZArith Bool List Lia ZifyBool.
From Verif Require Import Words State Opcodes SetModel LongModel Machine WordLemmas StateLemmas VmSpec VmProofs MemProofs CallProofs Samples.
Import ListNotations.
Open Scope Z_scope.
Ltac Zify.zify_post_hook ::= Z.div_mod_to_equations.

Lemma div_crashes : exists s, wf_regs s /\ wf_cfg (cf s) /\ exec_insn s (mkOp oDIV 0 0) = UB.
Proof.
  exists (demo_with [7; 0]). split; [unfold wf_regs; cbn; lia|]. split; [unfold wf_cfg; cbn; lia|reflexivity].
Qed.

Lemma binary_none f s a b : 0 <= sp s < 65536 -> tos s 1 = Some a -> tos s 0 = Some b -> f a b = None ->
  binary f s = UB.
Proof.
  intros Hs Ha Hb Hf. unfold binary. rewrite (pop_eq s b Hb). unfold bindo.
  assert (2 <= sp s) by (unfold tos in Ha; apply rd_some in Ha; destruct Ha as [Ha _]; apply in_word_iff in Ha; lia).
  change (u16 (sp s - 2)) with (u16 (sp s - 2 * 1)).
  rewrite (tos_drop s 1 0) by lia. replace (1 + 0) with 1 by lia. rewrite Ha. rewrite Hf. reflexivity.
Qed.

Lemma bad_operand_ub c s a b x y :
  0 <= sp s < 65536 -> tos s 1 = Some a -> tos s 0 = Some b ->
  (In c [oDIV; oMOD; oUDIV; oUMOD] /\ b = 0) \/ (In c [oSLL; oSRL; oSRA] /\ 32 <= b) ->
  exec_insn s (mkOp c x y) = UB.
Proof.
  intros Hs Ha Hb [[H1 H2]|[H1 H2]]; pose proof (tos_range _ _ _ Hb) as Rb.
  - subst b. repeat (destruct H1 as [<-|H1]); try contradiction.
    + change (exec_insn s (mkOp oDIV x y)) with (next 1 (exec8 DIV s)). cbn [exec8].
      rewrite (binary_none _ s a 0 Hs Ha Hb) by reflexivity. reflexivity.
    + change (exec_insn s (mkOp oMOD x y)) with (next 1 (exec8 MOD s)). cbn [exec8].
      rewrite (binary_none _ s a 0 Hs Ha Hb) by reflexivity. reflexivity.
    + change (exec_insn s (mkOp oUDIV x y)) with (next 1 (exec8 UDIV s)). cbn [exec8].
      rewrite (binary_none _ s a 0 Hs Ha Hb) by reflexivity. reflexivity.
    + change (exec_insn s (mkOp oUMOD x y)) with (next 1 (exec8 UMOD s)). cbn [exec8].
      rewrite (binary_none _ s a 0 Hs Ha Hb) by reflexivity. reflexivity.
  - assert (Hn : (0 <=? s16 b) && (s16 b <? 32) = false).
    { unfold s16, u16. destruct (b mod 65536 <? 32768) eqn:E; lia. }
    repeat (destruct H1 as [<-|H1]); try contradiction.
    + change (exec_insn s (mkOp oSLL x y)) with (next 1 (exec8 SLL s)). cbn [exec8].
      rewrite (binary_none _ s a b Hs Ha Hb); [reflexivity|]. unfold shift16. rewrite Hn. reflexivity.
    + change (exec_insn s (mkOp oSRL x y)) with (next 1 (exec8 SRL s)). cbn [exec8].
      rewrite (binary_none _ s a b Hs Ha Hb); [reflexivity|]. unfold shift16. rewrite Hn. reflexivity.
    + change (exec_insn s (mkOp oSRA x y)) with (next 1 (exec8 SRA s)). cbn [exec8].
      rewrite (binary_none _ s a b Hs Ha Hb); [reflexivity|]. unfold shift16. rewrite Hn. reflexivity.
Qed.

Lemma good_operand_ok c s a b x y :
  0 <= sp s < 65536 -> tos s 1 = Some a -> tos s 0 = Some b ->
  (In c [oDIV; oMOD; oUDIV; oUMOD] /\ b <> 0) \/ (In c [oSLL; oSRL; oSRA] /\ b < 32) ->
  exists s', exec_insn s (mkOp c x y) = Ok s'.
Proof.
  intros Hs Ha Hb H.
  assert (G : forall D R, In (c, D, R) binary_ops -> D a b -> exists s', exec_insn s (mkOp c x y) = Ok s').
  { intros D R Hin HD. destruct (binary_ops_correct c D R s a b x y Hin Hs Ha Hb HD) as (s' & r & E & _). eauto. }
  destruct H as [[H1 H2]|[H1 H2]]; repeat (destruct H1 as [<-|H1]); try contradiction.
  - apply (G (fun _ b => b <> 0) _ (or_intror (or_intror (or_intror (or_intror (or_introl eq_refl)))))); exact H2.
  - apply (G (fun _ b => b <> 0) _ (or_intror (or_intror (or_intror (or_intror (or_intror (or_introl eq_refl))))))); exact H2.
  - apply (G (fun _ b => b <> 0) _ (or_intror (or_intror (or_intror (or_intror (or_intror (or_intror (or_introl eq_refl)))))))); exact H2.
  - apply (G (fun _ b => b <> 0) _ (or_intror (or_intror (or_intror (or_intror (or_intror (or_intror (or_intror (or_introl eq_refl))))))))); exact H2.
  - apply (G (fun _ n => n < 32) _ (or_intror (or_intror (or_intror (or_intror (or_intror (or_intror (or_intror (or_intror (or_introl eq_refl)))))))))); exact H2.
  - apply (G (fun _ n => n < 32) _ (or_intror (or_intror (or_intror (or_intror (or_intror (or_intror (or_intror (or_intror (or_intror (or_introl eq_refl))))))))))); exact H2.
  - apply (G (fun _ n => n < 32) _ (or_intror (or_intror (or_intror (or_intror (or_intror (or_intror (or_intror (or_intror (or_intror (or_intror (or_introl eq_refl)))))))))))); exact H2.
Qed.

Lemma call_effect s level target s1 :
  room s 5 -> 0 <= fp s < 65536 -> 0 <= csp s < 65536 -> 0 <= lsp s < 256 -> 0 <= level < 256 ->
  exec_insn s (mkOp oPCAL level target) = Ok s1 ->
  pc s1 = target /\ sp s1 = sp s + 10 /\ fp s1 = sp s + 2 /\ csp s1 = csp s /\ lsp s1 = level /\
  (forall i, ~ (sp s / 2 < i <= sp s / 2 + 5) -> rd s1 i = rd s i).
Proof.
  intros H1 H2 H3 H4 H5 H6.
  destruct (pcal_ok s level target s1 H1 H2 H3 H4 H5 H6) as (A & B & C & D & E & F & G & H & _).
  repeat split; assumption.
Qed.

Lemma indexed_mismatch : exists s off idx v s',
  tos s 0 = Some v /\ tos s 1 = Some idx /\
  exec_list [mkOp oSTSX 0 off; mkOp oPUSH 0 idx; mkOp oLDSX 0 off] s = Ok s' /\
  exists r, tos s' 0 = Some r /\ r <> v.
Proof.
  exists (demo_with [4; 9]), 65532, 4, 9. eexists. split; [reflexivity|]. split; [reflexivity|].
  split; [vm_compute; reflexivity|]. exists 44. split; [vm_compute; reflexivity|discriminate].
Qed.

Lemma wild_store : exists s code, wf_regs s /\ wf_cfg (cf s) /\ pc s = 0 /\
  run 10 code (Z.of_nat (length code)) s = Some UB.
Proof.
  exists (with_pc demo 0), [oPUSH; 0x7f; 0xfe; oPUSH; 0; 1; oSTI; oEND].
  split; [unfold wf_regs; cbn; lia|]. split; [unfold wf_cfg; cbn; lia|]. split; reflexivity.
Qed.

Lemma pc_checked code s n : Z.of_nat (length code) <= pc s ->
  run (S n) code (Z.of_nat (length code)) s = Some (Err eBADPC s).
Proof.
  intros H. cbn [run]. unfold execute. replace (Z.of_nat (length code) <=? pc s) with true by lia. reflexivity.
Qed.
