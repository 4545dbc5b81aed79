(** The instructions selected for the standard functions. *)

From Coq Require Import ZArith Bool List Lia ZifyBool.
From Verif Require Import Words WordLemmas State StateLemmas Opcodes EncodeModel SetModel LongModel Machine VmSpec
  LongSpec VmProofs MemProofs MultiProofs LongProofs ExprModel ExprSpec ExprRun ExprOps ExprLoad.
Import ListNotations.
Open Scope Z_scope.

Lemma rw_inc x : rewrites (mkOp oINC 0 0) 0 (w1 x) (w1 (x + 1)).
Proof.
  eapply rw_unary; [inlist|exact I|]. intros r (x' & S & W).
  apply signed16_cong in S. destruct S as (k & ->). apply word16_mod in W. subst r.
  apply (mod_cong _ _ k). lia.
Qed.
Lemma rw_dec x : rewrites (mkOp oDEC 0 0) 0 (w1 x) (w1 (x - 1)).
Proof.
  eapply rw_unary; [inlist|exact I|]. intros r (x' & S & W).
  apply signed16_cong in S. destruct S as (k & ->). apply word16_mod in W. subst r.
  apply (mod_cong _ _ k). lia.
Qed.
Lemma rw_abs x : s16r x -> rewrites (mkOp oABS 0 0) 0 (w1 x) (w1 (Z.abs x)).
Proof.
  intros X. eapply rw_unary; [inlist|exact I|]. intros r (x' & S & W).
  apply signed16_val in S; [|exact X]. subst x'. apply word16_mod in W. exact W.
Qed.
Lemma rw_neqz x : s16r x -> rewrites (mkOp oNEQZ 0 0) 0 (w1 x) (w1 (if x =? 0 then 0 else -1)).
Proof.
  intros X. eapply rw_unary; [inlist|exact I|]. intros r (x' & S & W).
  apply signed16_val in S; [|exact X]. subst x'. apply (truth_word _ _ (negb (x =? 0))) in W; [|lia].
  rewrite W. destruct (x =? 0); reflexivity.
Qed.

Lemma odd_word x : (if Z.land x 1 =? 0 then 0 else -1) = (if Z.odd x then -1 else 0).
Proof.
  change 1 with (Z.ones 1). rewrite Z.land_ones by lia. change (2 ^ 1) with 2. rewrite Zmod_odd. destruct (Z.odd x); reflexivity.
Qed.
Lemma land_small x : s16r (Z.land x 1).
Proof.
  change 1 with (Z.ones 1). rewrite Z.land_ones by lia. change (2 ^ 1) with 2. unfold s16r.
  pose proof (Z.mod_pos_bound x 2). lia.
Qed.

Definition code_of (g : sfun) : Z :=
  match g with
  | FnAbs => txABS | FnSqr => txSQR | FnPred => txPRED | FnSucc => txSUCC
  | FnOrd => txORD | FnOdd => txODD | FnChr => txCHR end.

Lemma std_ctx g : std_find (code_of g) = fun_ctx g.
Proof. destruct g; reflexivity. Qed.
Lemma std_result g t T : type_fun g t = Some T -> std_type (code_of g) t = T.
Proof.
  destruct g; cbn [type_fun]; intros H; apply if_some in H; destruct H as (H & <-); try reflexivity.
  destruct t; try discriminate H; reflexivity.
Qed.

Section Fun.
  Variables (lev : Z) (env : var -> Z).

  Definition extends (qs : list opType) (vs ws : list Z) : Prop :=
    forall ps k xs, computes lev ps k xs env vs -> 1 <= k -> computes lev (ps ++ qs) (k + 1) xs env ws.

  Lemma extends_nil vs : extends [] vs vs.
  Proof. intros ps k xs C K. rewrite app_nil_r. apply (computes_weaken lev env ps k _ xs xs _ C); [lia|apply incl_refl]. Qed.
  Lemma extends_op p v w : rewrites p 0 [v] [w] -> extends [p] [v] [w].
  Proof. intros O ps k xs C K. apply (computes_op_all lev env ps p k 0 _ xs [v]); auto; cbn [length]; lia. Qed.
  Lemma extends_sqr p v w : rewrites p 0 [v; v] [w] -> extends [mkOp oDUP 0 0; p] [v] [w].
  Proof.
    intros O ps k xs C K. change [mkOp oDUP 0 0; p] with ([mkOp oDUP 0 0] ++ [p]). rewrite app_assoc.
    apply (computes_op_all lev env _ p (k + 1) 0 _ xs [v; v]); auto; cbn [length]; try lia.
    apply (computes_op_all lev env ps (mkOp oDUP 0 0) k 1 _ xs [v]); auto; cbn [length]; try lia. apply rw_dup.
  Qed.
  Lemma extends_odd x : extends [mkOp oPUSH 0 1; mkOp oAND 0 0; mkOp oNEQZ 0 0] (w1 x) (w1 (if Z.odd x then -1 else 0)).
  Proof.
    intros ps k xs C K.
    change [mkOp oPUSH 0 1; mkOp oAND 0 0; mkOp oNEQZ 0 0] with ([mkOp oPUSH 0 1] ++ [mkOp oAND 0 0] ++ [mkOp oNEQZ 0 0]).
    rewrite !app_assoc. rewrite <- odd_word.
    apply (computes_op_all lev env _ (mkOp oNEQZ 0 0) (k + 1) 0 _ xs (w1 (Z.land x 1))); [|apply rw_neqz, land_small|lia|cbn [length]; lia].
    apply (computes_op_all lev env _ (mkOp oAND 0 0) (k + 1) 0 _ xs (w1 x ++ w1 1)); [|apply rw_and|lia|cbn [length app]; lia].
    rewrite <- (app_nil_r xs).
    apply (computes_seq lev env ps [mkOp oPUSH 0 1] k 1); [exact C| |lia|cbn [length]; lia].
    apply computes_push; lia.
  Qed.
End Fun.

Lemma std_sound g t T : type_fun g t = Some T ->
  exists qs, (forall c, std_code (code_of g) t c = fold_left (fun c p => append p c) qs c) /\
    forall x z, inr t x = true -> value_fun g t x = Some z ->
      inr T z = true /\ forall lev env, extends lev env qs (words t x) (words T z).
Proof.
  intros H.
  destruct g; cbn [type_fun] in H; apply if_some in H; destruct H as (H & <-); destruct t; try discriminate H; clear H;
    match goal with |- context [std_code (code_of FnOdd)] => exists [mkOp oPUSH 0 1; mkOp oAND 0 0; mkOp oNEQZ 0 0]
                  | |- context [std_code (code_of FnAbs)] => exists [mkOp oABS 0 0]
                  | |- context [std_code (code_of FnPred)] => exists [mkOp oDEC 0 0]
                  | |- context [std_code (code_of FnSucc)] => exists [mkOp oINC 0 0]
                  | |- context [std_code (code_of FnSqr) xInteger] => exists [mkOp oDUP 0 0; mkOp oMUL 0 0]
                  | |- context [std_code (code_of FnSqr) xShortInteger] => exists [mkOp oDUP 0 0; mkOp oMUL 0 0]
                  | |- context [std_code (code_of FnSqr)] => exists [mkOp oDUP 0 0; mkOp oUMUL 0 0]
                  | _ => exists [] end;
    (split; [reflexivity|]); intros x z X V; cbn [value_fun] in V;
    try (apply limit_some in V; destruct V as (-> & R); split; [exact R|]).
  all: try (apply some_eq in V; subst z; split; [destruct (Z.odd x); reflexivity|]).
  all: intros lev env; cbn [words is32 class_of]; inrs.
  all: first [ apply extends_odd | apply extends_nil | apply extends_op; first [apply rw_abs; assumption|apply rw_inc|apply rw_dec]
             | apply extends_sqr; first [apply rw_mul|apply rw_umul; assumption] ].
Qed.
