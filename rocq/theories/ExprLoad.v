(** The instructions selected for unary operators, conversions, comparisons,
    constants and variables. *)

From Coq Require Import ZArith Bool List Lia ZifyBool.
From Verif Require Import Words WordLemmas State StateLemmas Opcodes EncodeModel SetModel LongModel Machine VmSpec
  LongSpec VmProofs MemProofs MultiProofs LongProofs ExprModel ExprSpec ExprRun ExprOps.
Import ListNotations.
Open Scope Z_scope.

Lemma negate_sound t : (is16 t || is32 t) && negb (same t xLongWord) = true ->
  exists p, (forall c, negate t c = append p c) /\
    forall x, inr t x = true -> inr t (- x) = true -> rewrites p 0 (words t x) (words t (- x)).
Proof.
  destruct t; try discriminate; intros _; (eexists; split; [intros c; reflexivity|]);
    intros x X Y; cbn [words is32 class_of]; inrs; first [apply rw_neg|apply rw_dneg; assumption].
Qed.

Lemma w1_not x : (65535 - x) mod 65536 = (- x - 1) mod 65536.
Proof. apply (mod_cong _ _ 1). lia. Qed.
Lemma w2_not x : [(4294967295 - x) mod 65536; ((4294967295 - x) / 65536) mod 65536] =
  [(- x - 1) mod 65536; ((- x - 1) / 65536) mod 65536].
Proof.
  f_equal; [apply (mod_cong _ _ 65536); lia|]. f_equal.
  replace (4294967295 - x) with (- x - 1 + 65536 * 65536) by lia. rewrite Z.div_add by lia.
  apply (mod_cong _ _ 1). lia.
Qed.

Lemma some_eq {A} (a b : A) : Some a = Some b -> b = a.
Proof. congruence. Qed.

Lemma not_sound t : is16 t || is32 t || is_logical t = true ->
  exists p, (forall c, error_if (negb (among t int16s || among t longs || teq t xBoolean)) eFACTORTYPE c = c) /\
    (forall c, (if among t longs then long_op 0x45 c else simple_op oNOT c) = append p c) /\
    forall x z, inr t x = true -> value_not t x = Some z ->
      inr t z = true /\ rewrites p 0 (words t x) (words t z).
Proof.
  destruct t; try discriminate; intros _.
  all: eexists; split; [reflexivity|split; [intros c; reflexivity|]].
  all: intros x z X V; unfold value_not in V; cbn [class_of] in V; apply some_eq in V.
  all: split; [clear - X V; unfold inr in *; cbn [class_of] in *; lia|].
  all: cbn [words is32 class_of]; rewrite V; try rewrite w1_not; try rewrite w2_not.
  all: first [apply rw_not|apply rw_dnot].
Qed.

Lemma convert_sound new old : class_of new <> None -> class_of old <> None ->
  is_logical new || is_logical old = false ->
  exists ps, (forall c, convert new old c = fold_left (fun c p => append p c) ps c) /\
    forall x, inr old x = true -> inr new x = true ->
      (ps = [] /\ words old x = words new x) \/
      (exists p, ps = [p] /\ rewrites p 1 (words old x) (words new x)).
Proof.
  intros N O L.
  destruct new; try (exfalso; apply N; reflexivity); try discriminate L;
  destruct old; try (exfalso; apply O; reflexivity); try discriminate L; clear N O L;
    first [ exists []; split; [intros c; reflexivity|]; intros x X Y; left; split; reflexivity
          | exists [mkOp oLONGOP8 nCNVD 0]; split; [intros c; reflexivity|]; intros x X Y; right; eexists; split; [reflexivity|];
            inrs; apply rw_cnvd; assumption
          | exists [mkOp oLONGOP8 nUCNVD 0]; split; [intros c; reflexivity|]; intros x X Y; right; eexists; split; [reflexivity|];
            inrs; apply rw_ucnvd; unfold u16r in *; lia
          | exists [mkOp oLONGOP8 nDCNV 0]; split; [intros c; reflexivity|]; intros x X Y; right; eexists; split; [reflexivity|];
            apply rw_dcnv1 ].
Qed.

Lemma value_rel_inv r t x y z : value_rel r t x y = Some z ->
  inr t x = true /\ inr t y = true /\ z = (if holds_rel r x y then -1 else 0).
Proof.
  unfold value_rel. intros H. apply bind_some in H. destruct H as (x' & X & H). apply limit_some in X. destruct X as (-> & X).
  apply bind_some in H. destruct H as (y' & Y & H). apply limit_some in Y. destruct Y as (-> & Y).
  injection H as <-. auto.
Qed.
Lemma holds_inr r x y : inr xBoolean (if holds_rel r x y then -1 else 0) = true.
Proof. destruct (holds_rel r x y); reflexivity. Qed.

Definition rel_token (r : rel) : Z :=
  match r with Equal => tEQ | Unequal => tNE | Less => tLT | LessEq => tLE | Greater => tGT | GreaterEq => tGE end.
Definition rel_ops (r : rel) : relop :=
  match r with
  | Equal => mkRel oEQU oEQU oEQU 0x56 0x56 | Unequal => mkRel oNEQ oNEQ oNEQ 0x57 0x57
  | Less => mkRel oLT oULT oNOP 0x58 0x64 | LessEq => mkRel oLTE oULTE oNOP 0x5b 0x67
  | Greater => mkRel oGT oUGT oNOP 0x5a 0x66 | GreaterEq => mkRel oGTE oUGTE oNOP 0x59 0x65
  end.
Lemma relation_token r : relation (rel_token r) = Some (rel_ops r).
Proof. destruct r; reflexivity. Qed.

Lemma type_rel_bool r a b t : type_rel r a b = Some t -> t = xBoolean.
Proof. unfold type_rel. destruct r; intros H; apply if_some in H; symmetry; apply H. Qed.

Definition compares (r : rel) (a b : etype) (p : opType) : Prop :=
  (forall c, compare (rel_ops r) a b c = (xBoolean, append p c)) /\
  forall x y z, value_rel r (common a b) x y = Some z ->
    inr xBoolean z = true /\ rewrites p 0 (words a x ++ words b y) (words xBoolean z).

Lemma compares_intro r a b p : (forall c, compare (rel_ops r) a b c = (xBoolean, append p c)) ->
  (forall x y, inr (common a b) x = true -> inr (common a b) y = true ->
     rewrites p 0 (words a x ++ words b y) (words xBoolean (if holds_rel r x y then -1 else 0))) ->
  compares r a b p.
Proof.
  intros H1 H2. split; [exact H1|]. intros x y z V.
  apply value_rel_inv in V. destruct V as (X & Y & ->). split; [apply holds_inr|]. apply H2; assumption.
Qed.
Lemma compares_int r a b : (forall c, compare (rel_ops r) a b c = (xBoolean, append (mkOp (int_rel r) 0 0) c)) ->
  is32 a = false -> is32 b = false -> (forall z, inr (common a b) z = true -> s16r z) ->
  exists p, compares r a b p.
Proof.
  intros H A B C. eexists. apply (compares_intro _ _ _ _ H). intros x y X Y. unfold words. rewrite A, B.
  apply (rw_int_rel r); auto.
Qed.
Lemma compares_word r a b : (forall c, compare (rel_ops r) a b c = (xBoolean, append (mkOp (word_rel r) 0 0) c)) ->
  is32 a = false -> is32 b = false -> (forall z, inr (common a b) z = true -> u16r z) ->
  exists p, compares r a b p.
Proof.
  intros H A B C. eexists. apply (compares_intro _ _ _ _ H). intros x y X Y. unfold words. rewrite A, B.
  apply (rw_word_rel r); auto.
Qed.
Lemma compares_long r a b : r = Equal \/ r = Unequal ->
  (forall c, compare (rel_ops r) a b c = (xBoolean, append (mkOp oLONGOP8 (long_rel r) 0) c)) ->
  is32 a = true -> is32 b = true ->
  (forall x y, inr (common a b) x = true -> inr (common a b) y = true -> (s32r x /\ s32r y) \/ (u32r x /\ u32r y)) ->
  exists p, compares r a b p.
Proof.
  intros D H A B C. eexists. apply (compares_intro _ _ _ _ H). intros x y X Y. unfold words. rewrite A, B.
  apply (rw_long_rel r); auto.
Qed.

Lemma compare_sound r a b t : type_rel r a b = Some t -> t = xBoolean /\ exists p, compares r a b p.
Proof.
  intros T. split; [apply (type_rel_bool _ _ _ _ T)|].
  destruct a, b; try (destruct r; discriminate T).
  all: try (apply compares_int; [intros c; destruct r; reflexivity|reflexivity|reflexivity|intros z Hz; inrs; exact Hz]).
  all: try (apply compares_word; [intros c; destruct r; reflexivity|reflexivity|reflexivity|intros z Hz; inrs; exact Hz]).
  all: assert (Q : r = Equal \/ r = Unequal) by (destruct r; try discriminate T; tauto).
  all: try (apply compares_long; [exact Q|intros c; destruct Q as [-> | ->]; reflexivity|reflexivity|reflexivity|
            intros x y Hx Hy; apply inr_cases in Hx; apply inr_cases in Hy; cbn [class_of common same teq] in *; tauto]).
  all: apply compares_int; [intros c; destruct Q as [-> | ->]; reflexivity|reflexivity|reflexivity|];
    intros z Hz; apply inr_cases in Hz; cbn [class_of common same teq] in Hz; unfold s16r; lia.
Qed.

(** ** Constants *)

Definition code (ps : list opType) (c : comp) : comp :=
  mkComp (toks c) (out c ++ ps) (errs c) (g_label c) (g_level c) (g_continue c) (g_break c) (g_adjust c).
Definition after (c : comp) (rest : list tok) (ps : list opType) : comp :=
  mkComp rest (out c ++ ps) (errs c) (g_label c) (g_level c) (g_continue c) (g_break c) (g_adjust c).

Lemma append_code p c : append p c = code [p] c.
Proof. reflexivity. Qed.

Definition lpush (v : Z) : opType := mkOp oPUSH 0 v.
Lemma emit_push v c : -32768 <= v <= 65535 -> data_op oPUSH v c = append (lpush (v mod 65536)) c.
Proof.
  intros H. unfold data_op, emit. change (has8 oPUSH) with false. change (has16 oPUSH) with true.
  cbn [andb error_if]. replace ((v <? -32768) || (65535 <? v)) with false by lia. reflexivity.
Qed.

Lemma int_const_sound ctx n t lev env : type_const ctx n = Some t ->
  exists ps, (forall c, int_const ctx n c = (t, code ps c)) /\ inr t n = true /\
    computes lev ps 2 [] env (words t n).
Proof.
  intros T. unfold type_const in T. destruct (n <? 0) eqn:N; [discriminate|].
  assert (One : forall t, n <= 65535 -> is32 t = false -> computes lev [lpush n] 2 [] env (words t n)).
  { intros u H E. unfold words. rewrite E. rewrite Z.mod_small by lia. apply computes_push; lia. }
  assert (Two : forall t, n < 4294967296 -> is32 t = true ->
            computes lev [lpush (n mod 65536); lpush (n / 65536)] 2 [] env (words t n)).
  { intros u H E. unfold words. rewrite E. replace ((n / 65536) mod 65536) with (n / 65536)
      by (symmetry; apply Z.mod_small; split; [apply Z.div_pos; lia|apply Z.div_lt_upper_bound; lia]).
    apply (computes_seq lev env [lpush (n mod 65536)] [lpush (n / 65536)] 1 1 2 [] [] [n mod 65536] [n / 65536]);
      [apply computes_push; [apply Z.mod_pos_bound|]; lia| |lia|cbn; lia].
    apply computes_push; [|lia]. split; [apply Z.div_pos; lia|apply Z.div_lt_upper_bound; lia]. }
  assert (E2 : n < 4294967296 -> forall c, data_op oPUSH (n / 65536) (data_op oPUSH (n mod 65536) c) =
                code [lpush (n mod 65536); lpush (n / 65536)] c).
  { intros H c. rewrite !emit_push.
    - unfold append, code; cbn [toks out errs g_label g_level g_continue g_break g_adjust].
      rewrite <- app_assoc. rewrite Z.mod_mod by lia. rewrite (Z.mod_small (n / 65536)); [reflexivity|].
      split; [apply Z.div_pos; lia|apply Z.div_lt_upper_bound; lia].
    - pose proof (Z.mod_pos_bound n 65536). lia.
    - assert (0 <= n / 65536) by (apply Z.div_pos; lia). assert (n / 65536 < 65536) by (apply Z.div_lt_upper_bound; lia). lia. }
  assert (E1 : n <= 65535 -> forall c, data_op oPUSH n c = code [lpush n] c).
  { intros H c. rewrite emit_push by lia. rewrite Z.mod_small by lia. reflexivity. }
  destruct (is32 ctx) eqn:L.
  - destruct (inr ctx n) eqn:R; [|discriminate]. injection T as <-.
    assert (B : n < 4294967296) by (apply inr_cases in R; destruct ctx; try discriminate L; cbn [class_of] in R; unfold s32r, u32r in R; lia).
    eexists. split; [|split; [exact R|apply (Two ctx B L)]].
    intros c. unfold int_const. replace (among ctx longs) with true by (destruct ctx; try discriminate L; reflexivity).
    rewrite (E2 B). reflexivity.
  - assert (A : among ctx longs = false) by (destruct ctx; try discriminate L; reflexivity).
    unfold int_const. rewrite A.
    destruct (n <=? 32767) eqn:B1.
    + exists [lpush n]. split; [|split].
      * intros c. replace (n <=? 65535) with true by lia. rewrite E1 by lia. f_equal.
        injection T as <-. unfold same. destruct (teq ctx xShortInteger), (n <=? 255), (teq ctx xShortWord); reflexivity.
      * injection T as <-. clear - N B1. unfold same.
        destruct (teq ctx xShortInteger), (n <=? 255), (teq ctx xShortWord); cbn [andb inr class_of]; lia.
      * injection T as <-. apply One; [lia|].
        unfold same. destruct (teq ctx xShortInteger), (n <=? 255), (teq ctx xShortWord); reflexivity.
    + destruct (n <=? 65535) eqn:B2.
      * unfold same in T. destruct (teq ctx xShortWord) eqn:W; [|discriminate]. injection T as <-.
        exists [lpush n]. split; [|split].
        { intros c. rewrite E1 by lia. f_equal. destruct ctx; try discriminate W. replace (n <=? 255) with false by lia. reflexivity. }
        { cbn [inr class_of]. lia. }
        { apply One; [lia|reflexivity]. }
      * destruct (n <=? 2147483647) eqn:B3; [|discriminate]. injection T as <-.
        eexists. split; [|split].
        { intros c. rewrite E2 by lia. reflexivity. }
        { cbn [inr class_of]. lia. }
        { apply Two; [lia|reflexivity]. }
Qed.

(** ** Variables *)

(** The instruction that refers to the variable [x] *)
Definition refer (lev opc : Z) (x : var) : opType :=
  if vlev x =? 0 then mkOp (level0 opc) 0 (voff x) else mkOp opc (lev - vlev x) (voff x mod 65536).

Lemma stack_ref_eq lev opc v x c : In opc [oLDS; oLDSB; oULDSB; oLDSM; oSTS; oSTSB; oSTSM] ->
  sLevel v = vlev x -> vOffset v = voff x -> g_level c = lev -> addressable lev x ->
  stack_ref opc v c = append (refer lev opc x) c.
Proof.
  intros I L O G (A1 & A2 & A3). unfold stack_ref, refer. rewrite L, O, G.
  assert (H16 : has16 opc = true /\ has16 (level0 opc) = true /\ has8 opc = true /\ has8 (level0 opc) = false /\ 0 <= level0 opc).
  { cbn [In] in I. repeat (destruct I as [I|I]; [subst opc; repeat split; try reflexivity; vm_compute; discriminate|]). destruct I. }
  destruct H16 as (H1 & H2 & H3 & H4 & H5).
  destruct (vlev x =? 0) eqn:E; cbn [andb].
  - replace (0 <=? level0 opc) with true by lia. replace (voff x <? 0) with false by lia.
    unfold emit. rewrite H2, H4. cbn [andb error_if].
    replace ((voff x <? -32768) || (65535 <? voff x)) with false by lia. cbn [error_if].
    f_equal. f_equal. apply u16_small. lia.
  - unfold emit. rewrite H1, H3. cbn [andb].
    rewrite u16_small by lia. replace (255 <? lev - vlev x) with false by lia. cbn [error_if].
    replace ((voff x <? -32768) || (65535 <? voff x)) with false by lia. cbn [error_if].
    f_equal. unfold u8, u16. f_equal. apply Z.mod_small. lia.
Qed.

Lemma var_size t : class_of t <> None -> 1 <= size_of t <= 4.
Proof. destruct t; cbn; intros; try lia. all: exfalso; auto. Qed.

Lemma located_here lev s x z : located lev s x z ->
  exists a, var_address lev s x a /\ a + size_of (vty x) <= 2 * (sp s / 2) + 2 /\ contains s (vty x) a z.
Proof. intros H. apply (H s); [unfold same_regs; auto|auto]. Qed.

Lemma located_above lev s s1 ws x z : located lev s x z -> pushed s s1 ws ->
  exists a, var_address lev s1 x a /\ a + size_of (vty x) <= 2 * (sp s / 2) + 2 /\ contains s1 (vty x) a z.
Proof. intros H (A & _ & _ & B). apply (H s1); assumption. Qed.

Lemma load_word lev opc w env x z : In (opc, w) [(oLDS, Word); (oLDSB, SByte); (oULDSB, UByte)] ->
  (forall s a, contains s (vty x) a z -> element s w a (z mod 65536)) -> env x = z ->
  computes lev [refer lev opc x] 1 [x] env [z mod 65536].
Proof.
  intros I C V s R L. specialize (L x (or_introl eq_refl)). rewrite V in L.
  destruct (located_here _ _ _ _ L) as (a & A & _ & H). apply C in H.
  unfold refer, var_address in *. destruct (vlev x =? 0).
  - assert (X : In (level0 opc, 3, w, false, fun s (_ imm16 _ a : Z) => global_ea s imm16 0 a) load_ops).
    { cbn [In] in I. destruct I as [[= <- <-]|[[= <- <-]|[[= <- <-]|[]]]]; cbn [In load_ops]; tauto. }
    destruct (load_ops_correct _ _ _ _ _ s 0 (voff x) 0 a (z mod 65536) X R ltac:(discriminate) A H) as (s' & E & F & _).
    exists s'. split; [cbn [exec_list]; rewrite E; reflexivity|apply effect_pushed, F].
  - assert (X : In (opc, 4, w, false, fun s (imm8 imm16 _ a : Z) => frame_ea s imm8 imm16 0 a) load_ops).
    { cbn [In] in I. destruct I as [[= <- <-]|[[= <- <-]|[[= <- <-]|[]]]]; cbn [In load_ops]; tauto. }
    destruct (load_ops_correct _ _ _ _ _ s (lev - vlev x) (voff x mod 65536) 0 a (z mod 65536) X R ltac:(discriminate) A H) as (s' & E & F & _).
    exists s'. split; [cbn [exec_list]; rewrite E; reflexivity|apply effect_pushed, F].
Qed.

Lemma copied_word s s' i j v : cf s' = cf s -> c_ssz (cf s) mod 2 = 0 -> 0 <= j -> 2 * j + 1 < c_ssz (cf s) ->
  rdb s' (2 * j) = rdb s (2 * i) -> rdb s' (2 * j + 1) = rdb s (2 * i + 1) -> rd s i = Some v -> rd s' j = Some v.
Proof.
  intros C E J K B1 B2 R. apply rd_some in R. destruct R as (R & ->). unfold in_word in R.
  rewrite rd_in by (unfold in_word; rewrite C; lia).
  unfold rdb, in_byte in B1, B2. rewrite C in B1, B2.
  replace ((0 <=? 2 * j) && (2 * j <? c_ssz (cf s))) with true in B1 by lia.
  replace ((0 <=? 2 * i) && (2 * i <? c_ssz (cf s))) with true in B1 by lia.
  replace ((0 <=? 2 * j + 1) && (2 * j + 1 <? c_ssz (cf s))) with true in B2 by lia.
  replace ((0 <=? 2 * i + 1) && (2 * i + 1 <? c_ssz (cf s))) with true in B2 by lia.
  apply some_eq in B1. apply some_eq in B2. f_equal. rewrite !word_of_bytes, B1, B2. reflexivity.
Qed.

Lemma load_long lev env x z : is32 (vty x) = true -> env x = z ->
  computes lev [lpush 4; refer lev oLDSM x] 2 [x] env [z mod 65536; (z / 65536) mod 65536].
Proof.
  intros T V s R L. specialize (L x (or_introl eq_refl)). rewrite V in L.
  destruct (push_insn s 0 4) as (s1 & E1 & F1 & _); [eapply room_mono; [exact R|lia]|lia|].
  pose proof (effect_pushed _ _ _ F1) as P1.
  destruct (located_above _ _ _ _ _ _ L P1) as (a & A & B & C).
  assert (C' : a mod 2 = 0 /\ rd s1 (a / 2) = Some (z mod 65536) /\ rd s1 (a / 2 + 1) = Some ((z / 65536) mod 65536))
    by (destruct (vty x); try discriminate T; exact C).
  clear C. destruct C' as (Ev & C1 & C2).
  assert (Sz : size_of (vty x) = 4) by (destruct (vty x); try discriminate T; reflexivity). rewrite Sz in B.
  pose proof P1 as ((Cf & _) & Sp & W & _). cbn [length] in Sp.
  pose proof (W 0%nat 4 eq_refl) as W0. cbn in W0.
  assert (Half : sp s1 / 2 = sp s / 2 + 1) by (rewrite Sp; lia).
  assert (T0 : tos s1 0 = Some 4) by (unfold tos; rewrite <- W0; f_equal; lia).
  destruct R as (R1 & R2 & R3 & R4).
  assert (M : forall c len EA i8 i16, In (c, len, false, EA) loadm_ops -> EA s1 i8 i16 0 a ->
     exists s', exec_insn s1 (mkOp c i8 i16) = Ok s' /\ pushed s s' [z mod 65536; (z / 65536) mod 65536]).
  { intros c len EA i8 i16 Hin HEA.
    assert (a0 : 0 <= a) by (apply rd_some in C1; destruct C1 as (C1 & _); unfold in_word in C1; lia).
    destruct (loadm_ops_correct c len false EA s1 i8 i16 0 a 4 (sp s) Hin) as (s' & E & SR & SP & _ & BC & FR).
    - rewrite Sp. lia.
    - lia.
    - exact T0.
    - discriminate.
    - exact HEA.
    - lia.
    - change (words_of 4) with 2. rewrite Cf. lia.
    - rewrite Cf; lia.
    - rewrite Cf; lia.
    - intros _. rewrite Cf. split; [exact Ev|]. split; [lia|]. left. lia.
    - exists s'. split; [exact E|]. change (words_of 4) with 2 in *.
      pose proof SR as (Cf' & _).
      split; [|split; [|split]].
      + apply (same_regs_trans s s1 s'); [apply P1|exact SR].
      + cbn [length]. lia.
      + assert (G : forall k v, 0 <= k <= 1 -> rd s1 (a / 2 + k) = Some v -> rd s' (sp s / 2 + 1 + k) = Some v).
        { intros k v Hk Hv. apply (copied_word s1 s' (a / 2 + k) (sp s / 2 + 1 + k)); auto; rewrite ?Cf; try lia.
          - replace (2 * (sp s / 2 + 1 + k)) with (2 * (sp s / 2 + 1) + 2 * k) by lia.
            rewrite (BC (2 * k)) by lia. f_equal. lia.
          - replace (2 * (sp s / 2 + 1 + k) + 1) with (2 * (sp s / 2 + 1) + (2 * k + 1)) by lia.
            rewrite (BC (2 * k + 1)) by lia. f_equal. lia. }
        intros [|[|k]] v K; cbn [nth_error] in K; [| |destruct k; discriminate K]; injection K as <-.
        * change (Z.of_nat 0) with 0. apply G; [lia|]. replace (a / 2 + 0) with (a / 2) by lia. exact C1.
        * change (Z.of_nat 1) with 1. apply G; [lia|exact C2].
      + intros i Hi. rewrite FR by lia. apply P1. lia. }
  cbn [exec_list]. unfold lpush. rewrite E1. unfold refer, var_address in *. destruct (vlev x =? 0).
  - destruct (M (level0 oLDSM) 3 (fun s (_ imm16 _ a : Z) => global_ea s imm16 0 a) 0 (voff x)) as (s' & E & F);
      [cbn [In loadm_ops]; tauto|exact A|]. rewrite E. exists s'. auto.
  - destruct (M oLDSM 4 (fun s (imm8 imm16 _ a : Z) => frame_ea s imm8 imm16 0 a) (lev - vlev x) (voff x mod 65536)) as (s' & E & F);
      [cbn [In loadm_ops]; tauto|exact A|]. rewrite E. exists s'. auto.
Qed.
