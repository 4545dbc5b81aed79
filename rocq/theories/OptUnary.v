(** popt_UnaryOptimize preserves the program, apart from the listed exceptions. *)

From Coq Require Import ZArith Bool List Lia ZifyBool.
From Verif Require Import Words State Opcodes SetModel LongModel Machine WordLemmas StateLemmas VmSpec VmProofs MemProofs
  EncodeSpec OptSpec OptStack OptPure OptStep OptFine PoptModel.
Import ListNotations.
Open Scope Z_scope.
Ltac Zify.zify_post_hook ::= Z.div_mod_to_equations.

Definition word (v : Z) : Prop := 0 <= v < 65536.

Definition pmatch (x y : pres) : Prop := x = PStop \/ (x = y /\ x <> PUnk).

Lemma all_fine_plain s0 l : (forall o, In o l -> ~ In (op o) mem_codes) -> forall k, all_fine s0 l k.
Proof.
  induction l as [|o l IH]; intros H k; [exact I|]. cbn [all_fine]. split.
  - apply fine_plain. apply H. left. reflexivity.
  - destruct (pexec s0 o k); auto. apply IH. intros; apply H; right; assumption.
Qed.

Lemma rule_pure_if (P : st -> Prop) x y : (forall o, In o (x ++ y) -> ~ In (op o) mem_codes) ->
  (forall s0 v0 v1 v2 v3, P s0 -> top s0 s0 [v0; v1; v2; v3] -> word v0 -> word v1 -> word v2 -> word v3 ->
     pmatch (prun s0 x [v0; v1; v2; v3]) (prun s0 y [v0; v1; v2; v3])) ->
  refines_if P x y.
Proof.
  intros Hm H s R Hsp C HP. assert (S0 : start s) by (split; assumption).
  destruct (start_top s S0) as (v0 & v1 & v2 & v3 & T).
  eapply (run_matches s S0 x y [v0; v1; v2; v3] T); [cbn; lia| | |].
  - apply all_fine_plain. intros o Ho. apply Hm. apply in_or_app. tauto.
  - apply all_fine_plain. intros o Ho. apply Hm. apply in_or_app. tauto.
  - apply H; [exact HP|exact T| | | |]; [eapply (top_val s s _ 0)|eapply (top_val s s _ 1)|eapply (top_val s s _ 2)|eapply (top_val s s _ 3)];
      try exact T; reflexivity.
Qed.

Lemma rule_pure x y : (forall o, In o (x ++ y) -> ~ In (op o) mem_codes) ->
  (forall s0 v0 v1 v2 v3, word v0 -> word v1 -> word v2 -> word v3 ->
     pmatch (prun s0 x [v0; v1; v2; v3]) (prun s0 y [v0; v1; v2; v3])) ->
  refines x y.
Proof. intros Hm H. apply rule_pure_if; [exact Hm|]. intros; apply H; assumption. Qed.

Lemma refines_refl x : refines x x.
Proof.
  intros s R H C _. unfold matches. destruct (flow_list x s) as [s1|l s1|]; [| |exact I];
    exists s1; (split; [reflexivity|]); unfold agree, same_regs; repeat split; auto.
Qed.

(** ** Rules starting with a constant *)
Section Rules.
  Variables (a b : opType).
  Hypothesis Wa : wf_op a.
  Hypothesis Ca : check_push a = true.
  Let c := arg2 (expand_push a).

  Lemma c_word : word c.
  Proof. apply expand_push_range. exact Wa. Qed.

  Ltac mem := 
    let o := fresh in let H := fresh in
    intros o H; cbn [app In] in H; repeat (destruct H as [<-|H]); try contradiction;
    first [ apply push_not_mem; assumption | eapply dec8_not_mem; eassumption
          | cbn; intuition discriminate ].

  Lemma r_push x : refines [a] [mkOp oPUSH x c].
  Proof.
    apply rule_pure; [mem|]. intros. cbn [prun]. rewrite (pexec_push s0 a _ Wa Ca), pexec_PUSH by apply c_word.
    right. split; [reflexivity|discriminate].
  Qed.

  Lemma r_fold d r x : decode_op8 (op b) = Some d -> word r ->
    (forall k, p8 d (c :: k) = PF (r :: k)) -> refines [a; b] [mkOp oPUSH x r].
  Proof.
    intros D Hr H. apply rule_pure; [mem|]. intros. cbn [prun]. rewrite (pexec_push s0 a _ Wa Ca).
    rewrite pexec_PUSH by exact Hr. cbn [p_push length Nat.leb]. rewrite (pexec_8 s0 b _ d D). fold c. rewrite H.
    right. split; [reflexivity|discriminate].
  Qed.

  Lemma r_drop d : decode_op8 (op b) = Some d ->
    (forall v k, word v -> p8 d (c :: v :: k) = PStop \/ p8 d (c :: v :: k) = PF (v :: k)) -> refines [a; b] [].
  Proof.
    intros D H. apply rule_pure; [mem|]. intros. cbn [prun]. rewrite (pexec_push s0 a _ Wa Ca).
    cbn [p_push length Nat.leb]. rewrite (pexec_8 s0 b _ d D). fold c.
    destruct (H v0 [v1; v2; v3] H0) as [E|E]; rewrite E; [left; reflexivity|right; split; [reflexivity|discriminate]].
  Qed.

  Lemma r_to d b' d' : decode_op8 (op b) = Some d -> decode_op8 (op b') = Some d' ->
    (forall v k, word v -> pmatch (p8 d (c :: v :: k)) (p8 d' (v :: k)) /\ forall t l, p8 d (c :: v :: k) <> PJ t l) ->
    refines [a; b] [b'].
  Proof.
    intros D D' H. apply rule_pure; [mem|]. intros. cbn [prun]. rewrite (pexec_push s0 a _ Wa Ca).
    cbn [p_push length Nat.leb]. rewrite (pexec_8 s0 b _ d D), (pexec_8 s0 b' _ d' D'). fold c.
    destruct (H v0 [v1; v2; v3] H0) as [[E|[E N]] J]; [rewrite E; left; reflexivity|].
    rewrite <- E. right. split; [reflexivity|]. destruct (p8 d _); try discriminate; congruence.
  Qed.

  Lemma r_two d b1 d1 b2 d2 : decode_op8 (op b) = Some d -> decode_op8 (op b1) = Some d1 -> decode_op8 (op b2) = Some d2 ->
    (forall v k, word v -> exists w, p8 d1 (v :: k) = PF (w :: k) /\ exists r, p8 d (c :: v :: k) = PF (r :: k) /\ p8 d2 (w :: k) = PF (r :: k)) ->
    refines [a; b] [b1; b2].
  Proof.
    intros D D1 D2 H. apply rule_pure; [mem|]. intros. cbn [prun]. rewrite (pexec_push s0 a _ Wa Ca).
    cbn [p_push length Nat.leb]. rewrite (pexec_8 s0 b _ d D), (pexec_8 s0 b1 _ d1 D1). fold c.
    destruct (H v0 [v1; v2; v3] H0) as (w & E & r & E1 & E2). rewrite E, E1. rewrite (pexec_8 s0 b2 _ d2 D2), E2.
    right. split; [reflexivity|discriminate].
  Qed.

  Lemma r_const d b' d' t x : decode_op8 (op b) = Some d -> decode_op8 (op b') = Some d' -> word t ->
    (forall v k, word v -> pmatch (p8 d (c :: v :: k)) (p8 d' (t :: v :: k))) ->
    refines [a; b] [mkOp oPUSH x t; b'].
  Proof.
    intros D D' Ht H. apply rule_pure; [mem|]. intros. cbn [prun]. rewrite (pexec_push s0 a _ Wa Ca).
    rewrite pexec_PUSH by exact Ht.
    cbn [p_push length Nat.leb]. rewrite (pexec_8 s0 b _ d D), (pexec_8 s0 b' _ d' D'). fold c.
    destruct (H v0 [v1; v2; v3] H0) as [E|[E N]]; [rewrite E; left; reflexivity|].
    rewrite <- E. right. split; [reflexivity|]. destruct (p8 d _); try discriminate; congruence.
  Qed.

  (** conditional jumps on a constant *)
  Lemma r_jump f d : decode_op24 (op b) = Some d -> ~ In (op b) mem_codes ->
    (forall s0 k, p24 s0 d (arg2 b) (arg2 b) k = p_jz f (arg2 b) k) ->
    refines [a; b] (if f (s16 c) then [mkOp oJMP (arg1 b) (arg2 b)] else []).
  Proof.
    intros D N H. apply rule_pure.
    { intros o Ho. apply in_app_or in Ho. destruct Ho as [Ho|Ho].
      - cbn [In] in Ho. destruct Ho as [<-|[<-|[]]]; [apply push_not_mem; assumption|exact N].
      - destruct (f (s16 c)); cbn [In] in Ho; [|contradiction]. destruct Ho as [<-|[]]. cbn; intuition discriminate. }
    intros. cbn [prun]. rewrite (pexec_push s0 a _ Wa Ca). cbn [p_push length Nat.leb].
    rewrite (pexec_24 s0 b _ d D), H. fold c. cbn [p_jz].
    destruct (f (s16 c)); right; (split; [reflexivity|discriminate]).
  Qed.
End Rules.
