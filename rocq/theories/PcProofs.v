(** The program counter after an instruction. *)

From Coq Require Import ZArith Bool List Lia ZifyBool.
From Verif Require Import Words State Opcodes SetModel LongModel Machine EncodeModel VmSpec.
Import ListNotations.
Open Scope Z_scope.

Lemma wr_pc s i v s' : wr s i v = Some s' -> pc s' = pc s.
Proof. unfold wr; destruct (in_word s i); [intros [= <-]; reflexivity|discriminate]. Qed.
Lemma wrb_pc s i v s' : wrb s i v = Some s' -> pc s' = pc s.
Proof. unfold wrb; destruct (in_byte s i); [intros [= <-]; reflexivity|discriminate]. Qed.
Lemma push_pc s v s' : push s v = Some s' -> pc s' = pc s.
Proof. intros H; apply wr_pc in H; exact H. Qed.
Lemma pop_pc s v s' : pop s = Some (v, s') -> pc s' = pc s.
Proof. unfold pop; destruct (rd s (sp s / 2)); [intros [= _ <-]; reflexivity|discriminate]. Qed.
Lemma puttos_pc s k v s' : puttos s k v = Some s' -> pc s' = pc s.
Proof. apply wr_pc. Qed.
Lemma putstack_pc s k v s' : putstack s k v = Some s' -> pc s' = pc s.
Proof. apply wr_pc. Qed.

Ltac binds H :=
  repeat (match type of H with
          | bindo ?e _ = Ok _ => let E := fresh "E" in destruct e eqn:E; cbn [bindo] in H; [|discriminate H]
          | bindO ?e _ = Some _ => let E := fresh "E" in destruct e eqn:E; cbn [bindO] in H; [|discriminate H]
          | (let '(_, _) := ?e in _) = _ => destruct e
          | ret ?e = Ok _ => let E := fresh "E" in destruct e eqn:E; cbn [ret] in H; [injection H as H|discriminate H]
          end; cbv beta in H).
Ltac pcs :=
  repeat match goal with
  | H : wr _ _ _ = Some _ |- _ => apply wr_pc in H
  | H : wrb _ _ _ = Some _ |- _ => apply wrb_pc in H
  | H : push _ _ = Some _ |- _ => apply push_pc in H
  | H : pop _ = Some (_, _) |- _ => apply pop_pc in H
  | H : puttos _ _ _ = Some _ |- _ => apply puttos_pc in H
  | H : putstack _ _ _ = Some _ |- _ => apply putstack_pc in H
  end.

Lemma load_loop_pc n : forall s a b s', load_loop n s a b = Some s' -> pc s' = pc s.
Proof.
  induction n as [|n IH]; intros s a b s'; cbn [load_loop]; [intros [= <-]; reflexivity|].
  destruct (2 <=? a); intros H; binds H; apply IH in H; pcs; congruence.
Qed.
Lemma store_loop_pc n : forall s a b k s', store_loop n s a b k = Some s' -> pc s' = pc s.
Proof.
  induction n as [|n IH]; intros s a b k s'; cbn [store_loop]; [intros [= <-]; reflexivity|].
  intros H; binds H. destruct (2 <=? a); binds H; apply IH in H; pcs; congruence.
Qed.
Lemma load_multi_pc s a b s' : load_multi s a b = Some s' -> pc s' = pc s.
Proof. apply load_loop_pc. Qed.
Lemma store_multi_pc s a b k s' : store_multi s a b k = Some s' -> pc s' = pc s.
Proof. apply store_loop_pc. Qed.
Lemma words4_pc f s a b s' : words4 f s a b = Some s' -> pc s' = pc s.
Proof. unfold words4. intros H. binds H. pcs. congruence. Qed.
Lemma zero4_pc s a s' : zero4 s a = Some s' -> pc s' = pc s.
Proof. unfold zero4. intros H. binds H. pcs. congruence. Qed.
Lemma upop32_pc s v s' : upop32 s = Some (v, s') -> pc s' = pc s.
Proof.
  unfold upop32. intros H. binds H. injection H as _ <-. pcs. congruence.
Qed.
Lemma upush32_pc s v s' : upush32 s v = Some s' -> pc s' = pc s.
Proof. unfold upush32. intros H. binds H. pcs. congruence. Qed.
Lemma uputtos32_pc s v k s' : uputtos32 s v k = Some s' -> pc s' = pc s.
Proof. unfold uputtos32. intros H. binds H. pcs. congruence. Qed.

Ltac pcs2 :=
  pcs;
  repeat match goal with
  | H : load_multi _ _ _ = Some _ |- _ => apply load_multi_pc in H
  | H : store_multi _ _ _ _ = Some _ |- _ => apply store_multi_pc in H
  | H : words4 _ _ _ _ = Some _ |- _ => apply words4_pc in H
  | H : zero4 _ _ = Some _ |- _ => apply zero4_pc in H
  | H : upop32 _ = Some (_, _) |- _ => apply upop32_pc in H
  | H : upush32 _ _ = Some _ |- _ => apply upush32_pc in H
  | H : uputtos32 _ _ _ = Some _ |- _ => apply uputtos32_pc in H
  end;
  repeat match goal with H : Ok _ = Ok _ |- _ => injection H as H end; subst;
  unfold discard in *; cbn [pc with_sp with_csp with_mem] in *; congruence.

Lemma subrange_loop_pc n : forall s d w a b c e f s', subrange_loop n s d w a b c e f = Ok s' -> pc s' = pc s.
Proof.
  induction n as [|n IH]; intros s d w a b c e f s'; cbn [subrange_loop].
  - destruct (0 <? c); [discriminate|]. intros [= <-]; reflexivity.
  - destruct (0 <? c); [|intros [= <-]; reflexivity]. intros H; binds H.
    destruct (16 <=? c - b); [|destruct (0 <? c - b)]; apply IH in H; pcs; congruence.
Qed.

Lemma set_operation_pc s i s' : set_operation s i = Ok s' -> pc s' = pc s.
Proof.
  unfold set_operation. destruct (decode_set i) as [[]|]; [..|discriminate]; intros H;
  unfold set_empty, set_binary, set_compare, set_member, set_include, set_exclude, set_card, set_singleton in H.
  all: try (binds H; pcs2).
  - binds H. destruct ((_ <? 0) || _); [discriminate|]. binds H. pcs2.
  - binds H. destruct ((_ <? 0) || _); [discriminate|]. binds H. pcs2.
  - unfold set_subrange in H. binds H.
    destruct ((_ <? 0) || _); [discriminate|]. destruct ((_ <? 0) || _); [discriminate|].
    destruct (_ =? _); [binds H; pcs2|]. apply subrange_loop_pc in H. pcs2.
Qed.

Lemma long_operation8_pc s i s' : long_operation8 s i = Ok s' -> pc s' = pc s.
Proof.
  unfold long_operation8. destruct (decode_long8 i) as [[]|]; [..|discriminate]; intros H;
  unfold long_unary, long_binary, long_shift, long_cmpz, long_scmp, long_ucmp in H.
  all: try (binds H; pcs2).
  binds H. destruct (s32 z <? 0); binds H; pcs2.
Qed.

Lemma exec8_pc o s s' : o <> RET -> o <> END -> exec8 o s = Ok s' -> pc s' = pc s.
Proof.
  intros N1 N2 H. destruct o; cbn [exec8] in H; unfold unary, binary, scmp, ucmp, binary, cmpz in H; try congruence.
  all: try (binds H; pcs2).
  binds H. destruct (s16 z <? 0); binds H; pcs2.
Qed.

Lemma exec24_pc o s i s' : exec24 o s i = Ok s' -> pc s' = pc s.
Proof.
  intros H. destruct o; cbn [exec24] in H; try discriminate H; binds H; pcs2.
Qed.

Lemma exec32_pc o s i j s' : o <> PCAL -> exec32 o s i j = Ok s' -> pc s' = pc s.
Proof.
  intros N H. destruct o; cbn [exec32] in H; try congruence; binds H; pcs2.
Qed.

Lemma next_pc n o s s' : (forall t, o = Ok t -> pc t = pc s) -> next n o = Ok s' -> pc s' = u16 (pc s + n).
Proof. intros H. destruct o; cbn [next]; intros E; try discriminate. injection E as <-. cbn [pc with_pc]. rewrite (H s0 eq_refl). reflexivity. Qed.

Lemma pexec8_pc c s s' : 0 <= c < 256 -> c <> oRET -> pexec8 s c = Ok s' -> pc s' = u16 (pc s + 1).
Proof.
  intros Hc Hr. unfold pexec8. destruct (decode_op8 c) as [o|] eqn:E; [|discriminate].
  assert (o <> RET).
  { intros ->. apply Hr. unfold decode_op8 in E.
    repeat match type of E with context [match ?x with _ => _ end] => destruct x; try discriminate E end. reflexivity. }
  destruct (match o with END => true | _ => false end) eqn:E2.
  - destruct o; try discriminate.
  - intros H0. assert (next 1 (exec8 o s) = Ok s') by (destruct o; congruence).
    eapply next_pc; [|eassumption]. intros t. apply exec8_pc; [assumption|]. intros ->; discriminate.
Qed.

Lemma decode24_inv c o : decode_op24 c = Some o -> In (c, o)
  [ (oJMP, JMP); (oJEQUZ, JEQUZ); (oJNEQZ, JNEQZ); (oJLTZ, JLTZ); (oJGTEZ, JGTEZ); (oJGTZ, JGTZ);
    (oJLTEZ, JLTEZ); (oJEQU, JEQU); (oJNEQ, JNEQ); (oJLT, JLT); (oJGTE, JGTE); (oJGT, JGT);
    (oJLTE, JLTE); (oJULT, JULT); (oJUGTE, JUGTE); (oJUGT, JUGT); (oJULTE, JULTE) ] \/
  ~ In o [JMP; JEQUZ; JNEQZ; JLTZ; JGTEZ; JGTZ; JLTEZ; JEQU; JNEQ; JLT; JGTE; JGT; JLTE; JULT; JUGTE; JUGT; JULTE].
Proof.
  unfold decode_op24. intros E.
  repeat match type of E with context [match ?x with _ => _ end] => destruct x; try discriminate E end;
  injection E as <-;
  (left; cbn [In]; repeat (first [left; reflexivity | right]); fail) ||
  (right; cbn [In]; intuition discriminate).
Qed.

Lemma jumpz_pc f s i s' : jumpz f s i = Ok s' -> pc s' = u16 (pc s + 3) \/ pc s' = i.
Proof.
  unfold jumpz, jump. intros H. binds H. injection H as <-. cbn [pc with_pc]. pcs.
  destruct (f (s16 z)); [right; reflexivity|left; congruence].
Qed.
Lemma jump2_pc f s i s' : jump2 f s i = Ok s' -> pc s' = u16 (pc s + 3) \/ pc s' = i.
Proof.
  unfold jump2, jump. intros H. binds H. injection H as <-. cbn [pc with_pc]. pcs.
  destruct (f z0 z); [right; reflexivity|left; congruence].
Qed.

Lemma pexec24_pc c s i s' : pexec24 s c i = Ok s' ->
  pc s' = u16 (pc s + 3) \/ (In c jump_codes /\ pc s' = i).
Proof.
  unfold pexec24. destruct (decode_op24 c) as [o|] eqn:E; [|discriminate].
  destruct (decode24_inv _ _ E) as [Hin|Hno].
  - cbn [In] in Hin.
    repeat (destruct Hin as [Hin|Hin];
      [injection Hin as <- <-; intros H;
       assert (pc s' = u16 (pc s + 3) \/ pc s' = i) as [X|X];
       [first [apply jumpz_pc in H; exact H | apply jump2_pc in H; exact H
              | injection H as <-; right; reflexivity]
       |left; exact X|right; split; [|exact X]; cbn [In jump_codes]; repeat (first [left; reflexivity | right])]|]);
    destruct Hin.
  - intros H. left. assert (N : next 3 (exec24 o s i) = Ok s').
    { destruct o; try exact H; exfalso; apply Hno; cbn [In]; repeat (first [left; reflexivity | right]). }
    eapply next_pc; [|exact N]. intros t; apply exec24_pc.
Qed.

Lemma pexec16_pc c s i s' : pexec16 s c i = Ok s' -> pc s' = u16 (pc s + 2).
Proof.
  unfold pexec16. cbv zeta. destruct (decode_op16 c) as [[]|]; try discriminate; intros H.
  - apply set_operation_pc in H. exact H.
  - apply long_operation8_pc in H. exact H.
  - binds H. apply push_pc in E. subst s'. exact E.
  - binds H. apply push_pc in E. subst s'. exact E.
Qed.

Lemma pexec32_pc c s i j s' : c <> oPCAL -> pexec32 s c i j = Ok s' -> pc s' = u16 (pc s + 4).
Proof.
  intros Hc. unfold pexec32. destruct (decode_op32 c) as [o|] eqn:E; [|discriminate].
  assert (o <> PCAL).
  { intros ->. apply Hc. unfold decode_op32 in E.
    repeat match type of E with context [match ?x with _ => _ end] => destruct x; try discriminate E end. reflexivity. }
  intros H0. assert (next 4 (exec32 o s i j) = Ok s') by (destruct o; congruence).
  eapply next_pc; [|eassumption]. intros t. apply exec32_pc; assumption.
Qed.

Lemma exec_insn_pc s p s' : 0 <= op p < 256 -> op p <> oRET -> op p <> oPCAL ->
  exec_insn s p = Ok s' ->
  pc s' = u16 (pc s + op_size (op p)) \/ (In (op p) jump_codes /\ pc s' = arg2 p).
Proof.
  intros Hop Hr Hp. unfold exec_insn, op_size.
  destruct (has8 (op p)) eqn:E8; destruct (has16 (op p)) eqn:E16; intros H.
  - left. eapply pexec32_pc; eauto.
  - left. eapply pexec16_pc; eauto.
  - destruct (pexec24_pc _ _ _ _ H) as [X|X]; [left|right]; exact X.
  - left. eapply pexec8_pc; eauto.
Qed.
