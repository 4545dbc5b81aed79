(** Proofs about label resolution. *)

From Coq Require Import ZArith Bool List Lia ZifyBool.
From Verif Require Import Words Opcodes Machine EncodeModel EncodeSpec WordLemmas EncodeProofs CodeLemmas
  FinalModel FinalSpec.
Import ListNotations.
Open Scope Z_scope.

Lemma insn_length_pos o : 1 <= insn_length o <= 4.
Proof. unfold insn_length. destruct (Z.testbit o 6), (Z.testbit o 7); lia. Qed.

Lemma code_size_app a b : code_size (a ++ b) = code_size a + code_size b.
Proof. induction a as [|p a IH]; [reflexivity|]. cbn [app code_size fold_right] in *. fold (code_size (a ++ b)). fold (code_size a). lia. Qed.

Lemma code_size_nonneg a : 0 <= code_size a.
Proof. induction a as [|p a IH]; [reflexivity|]. cbn [code_size fold_right]. fold (code_size a). pose proof (insn_length_pos (op p)). lia. Qed.

Lemma instructions_app a b : instructions (a ++ b) = instructions a ++ instructions b.
Proof. apply filter_app. Qed.

Lemma code_size_instr_le a : code_size (instructions a) <= code_size a.
Proof.
  induction a as [|p a IH]; [reflexivity|]. cbn [instructions filter]. fold (instructions a).
  cbn [code_size fold_right]. fold (code_size a). pose proof (insn_length_pos (op p)).
  destruct (marker p); cbn [negb]; [|cbn [code_size fold_right]; fold (code_size (instructions a))]; lia.
Qed.

Lemma write_size ps : Z.of_nat (length (write_program ps)) = code_size ps.
Proof.
  rewrite sizes_add. unfold code_size. induction ps as [|p ps IH]; [reflexivity|].
  cbn [fold_right]. rewrite IH, op_size_length. reflexivity.
Qed.

(** ** pass1 *)

Lemma pass1_snoc ops p rels : pass1 (ops ++ [p]) rels = pass1_step (pass1 ops rels) p.
Proof. unfold pass1. rewrite fold_left_app. reflexivity. Qed.

Lemma step_cases s p :
  (op p = oLABEL /\ marker p = true /\
    pass1_step s p = mkP1 (p1_in s + op_size (op p)) (p1_out s) (p1_labels s ++ [(arg2 p, p1_out s)]) (p1_lines s)
      (p1_code s) (p1_rels s) (p1_pend s) (p1_bad s)) \/
  (op p = oLINE /\ marker p = true /\
    pass1_step s p = mkP1 (p1_in s + op_size (op p)) (p1_out s) (p1_labels s)
      (p1_lines s ++ [(arg2 p, arg1 p, p1_out s)]) (p1_code s) (p1_rels s) (p1_pend s) (p1_bad s)) \/
  (op p <> oLABEL /\ op p <> oLINE /\ marker p = false /\
    exists rels pend bad,
    pass1_step s p = mkP1 (p1_in s + op_size (op p)) (p1_out s + op_size (op p)) (p1_labels s) (p1_lines s)
      (p1_code s ++ [p]) rels pend bad /\
    ((exists r, p1_pend s = r :: pend /\ roffset r = p1_in s /\
        rels = p1_rels s ++ [mkRel (rinfo r) (p1_out s)] /\
        bad = (p1_bad s || match pend with r' :: _ => roffset r' <=? roffset r | [] => false end)) \/
     ((forall r t, p1_pend s = r :: t -> roffset r <> p1_in s) /\ rels = p1_rels s /\ pend = p1_pend s /\ bad = p1_bad s))).
Proof.
  unfold pass1_step, marker, table_add.
  destruct (op p =? oLABEL) eqn:E1; [left; repeat split; lia|].
  destruct (op p =? oLINE) eqn:E2; [right; left; repeat split; lia|].
  right; right. split; [lia|]. split; [lia|]. split; [reflexivity|].
  unfold write_opcode. cbn [p1_in p1_out p1_labels p1_lines p1_code p1_rels p1_pend p1_bad].
  destruct (p1_pend s) as [|r t] eqn:P.
  - do 3 eexists. split; [reflexivity|]. right. split; [intros ? ? H; discriminate H|]. repeat split.
  - destruct (roffset r =? p1_in s) eqn:E.
    + do 3 eexists. split; [reflexivity|]. left. exists r. repeat split; try lia.
      replace (roffset r - (p1_in s - p1_out s)) with (p1_out s) by lia. reflexivity.
    + do 3 eexists. split; [reflexivity|]. right. split; [|repeat split].
      intros r0 t0 H. injection H as <- <-. lia.
Qed.

Lemma instr_snoc ops p : instructions (ops ++ [p]) = instructions ops ++ (if marker p then [] else [p]).
Proof. rewrite instructions_app. cbn [instructions filter]. destruct (marker p); reflexivity. Qed.

Lemma pass1_offsets ops rels :
  p1_in (pass1 ops rels) = code_size ops /\
  p1_out (pass1 ops rels) = code_size (instructions ops) /\
  p1_code (pass1 ops rels) = instructions ops.
Proof.
  induction ops as [|p ops (I1 & I2 & I3)] using rev_ind; [repeat split|].
  rewrite pass1_snoc, instr_snoc, !code_size_app.
  destruct (step_cases (pass1 ops rels) p) as [(A & M & E)|[(A & M & E)|(A & B & M & r & pe & b & E & _)]];
    rewrite E, M; cbn [p1_in p1_out p1_code code_size fold_right]; rewrite I1, I2, I3, ?op_size_length, ?app_nil_r; repeat split; lia.
Qed.

Lemma snoc_split {A} (l : list A) x pre p post : l ++ [x] = pre ++ p :: post ->
  (post = [] /\ pre = l /\ p = x) \/ exists post', post = post' ++ [x] /\ l = pre ++ p :: post'.
Proof.
  intros H. destruct post as [|y post] using rev_ind.
  - apply app_inj_tail in H. destruct H as [-> ->]. left. repeat split.
  - right. exists post. rewrite app_comm_cons, app_assoc in H. apply app_inj_tail in H. destruct H as [-> ->]. repeat split.
Qed.

Lemma pass1_labels_spec ops rels l a :
  In (l, a) (p1_labels (pass1 ops rels)) <-> label_at ops l a.
Proof.
  induction ops as [|p ops IH] using rev_ind.
  - cbn. split; [intros []|]. intros (pre & p & post & H & _). destruct pre; discriminate H.
  - rewrite pass1_snoc. destruct (pass1_offsets ops rels) as (O1 & O2 & O3).
    assert (G : label_at (ops ++ [p]) l a <-> label_at ops l a \/ (op p = oLABEL /\ arg2 p = l /\ a = code_size (instructions ops))).
    { split.
      - intros (pre & q & post & H & A & B & C). destruct (snoc_split _ _ _ _ _ H) as [(-> & -> & ->)|(post' & -> & ->)].
        + right. repeat split; assumption.
        + left. exists pre, q, post'. repeat split; assumption.
      - intros [(pre & q & post & -> & A & B & C)|(A & B & C)].
        + exists pre, q, (post ++ [p]). rewrite <- app_assoc. repeat split; assumption.
        + exists ops, p, []. repeat split; assumption. }
    rewrite G, <- IH.
    destruct (step_cases (pass1 ops rels) p) as [(A & M & E)|[(A & M & E)|(A & B & M & r & pe & b & E & _)]];
      rewrite E; cbn [p1_labels].
    + rewrite in_app_iff. cbn [In]. split.
      * intros [H|[H|[]]]; [left; exact H|right]. injection H as <- <-. repeat split; try assumption.
      * intros [H|(_ & <- & ->)]; [left; exact H|right; left]. rewrite O2. reflexivity.
    + split; [left; assumption|]. intros [H|(H & _)]; [exact H|]. rewrite A in H. discriminate H.
    + split; [left; assumption|]. intros [H|(H & _)]; [exact H|]. contradiction.
Qed.

Lemma table_get_in t l : 0 <= table_get t l -> In (l, table_get t l) t.
Proof.
  induction t as [|[k v] t IH]; [cbn; lia|]. cbn [table_get]. destruct (k =? l) eqn:E.
  - intros _. left. f_equal. lia.
  - intros H. right. apply IH, H.
Qed.

Lemma table_get_none t l : table_get t l = -1 <-> (forall v, In (l, v) t -> False) \/ exists v, In (l, v) t /\ table_get t l = -1.
Proof.
  split.
  - intros H. destruct (in_dec Z.eq_dec l (map fst t)) as [I|N].
    + apply in_map_iff in I. destruct I as ([k v] & E & I). cbn in E. subst k. right. exists v. split; assumption.
    + left. intros v I. apply N. apply in_map_iff. exists (l, v). split; [reflexivity|exact I].
  - intros [H|(v & _ & H)]; [|exact H]. induction t as [|[k w] t IH]; [reflexivity|]. cbn [table_get].
    destruct (k =? l) eqn:E; [exfalso; apply (H w); left; f_equal; lia|]. apply IH. intros v I. apply (H v). right. exact I.
Qed.

Lemma table_get_found t l : (forall k v, In (k, v) t -> 0 <= v) -> (exists v, In (l, v) t) -> 0 <= table_get t l.
Proof.
  induction t as [|[k w] t IH]; intros P (v & I); [destruct I|]. cbn [table_get]. destruct (k =? l) eqn:E.
  - apply (P k w). left. reflexivity.
  - apply IH; [intros k' v' I'; apply (P k' v'); right; exact I'|]. destruct I as [H|I]; [injection H as -> ->; lia|]. exists v. exact I.
Qed.

Lemma table_get_absent t l : (forall v, ~ In (l, v) t) -> table_get t l = -1.
Proof. intros H. apply table_get_none. left. exact H. Qed.

Lemma label_at_nonneg ops l a : label_at ops l a -> 0 <= a <= code_size (instructions ops).
Proof.
  intros (pre & p & post & -> & _ & _ & ->). rewrite instructions_app, code_size_app.
  pose proof (code_size_nonneg (instructions pre)). pose proof (code_size_nonneg (instructions (p :: post))). lia.
Qed.

Lemma has_label_at ops l : has_label ops l <-> exists a, label_at ops l a.
Proof.
  split.
  - intros (p & I & A & B). apply in_split in I. destruct I as (pre & post & ->).
    exists (code_size (instructions pre)), pre, p, post. repeat split; assumption.
  - intros (a & pre & p & post & -> & A & B & _). exists p. repeat split; try assumption. apply in_elt.
Qed.

Lemma get_label_some ops rels l : 0 <= table_get (p1_labels (pass1 ops rels)) l ->
  label_at ops l (table_get (p1_labels (pass1 ops rels)) l).
Proof. intros H. rewrite <- pass1_labels_spec. apply table_get_in, H. Qed.

Lemma get_label_iff ops rels l : 0 <= table_get (p1_labels (pass1 ops rels)) l <-> has_label ops l.
Proof.
  rewrite has_label_at. split.
  - intros H. eexists. apply (get_label_some _ _ _ H).
  - intros (a & H). apply table_get_found.
    + intros k v I. rewrite pass1_labels_spec in I. apply label_at_nonneg in I. lia.
    + exists a. rewrite pass1_labels_spec. exact H.
Qed.

(** Under [labels_once] a label stands for one address only. *)
Lemma split_twice {A} (a : list A) x b : forall a' x' b', a ++ x :: b = a' ++ x' :: b' ->
  (a = a' /\ x = x') \/ (exists m, a' = a ++ x :: m /\ b = m ++ x' :: b') \/ (exists m, a = a' ++ x' :: m /\ b' = m ++ x :: b).
Proof.
  induction a as [|y a IH]; intros [|y' a'] x' b' H; cbn [app] in H.
  - injection H as -> _. left. split; reflexivity.
  - injection H as -> ->. right. left. exists a'. split; reflexivity.
  - injection H as -> <-. right. right. exists a. split; reflexivity.
  - injection H as -> H. destruct (IH _ _ _ H) as [[-> ->]|[(m & -> & ->)|(m & -> & ->)]].
    + left. split; reflexivity.
    + right. left. exists m. split; reflexivity.
    + right. right. exists m. split; reflexivity.
Qed.

Lemma label_unique ops l a b : labels_once ops -> label_at ops l a -> label_at ops l b -> a = b.
Proof.
  intros U (pre & p & post & E & A & B & ->) (pre' & p' & post' & E' & A' & B' & ->).
  rewrite E in E'. destruct (split_twice _ _ _ _ _ _ E') as [[-> _]|[(m & -> & ->)|(m & -> & ->)]]; [reflexivity| |]; exfalso.
  - apply (U pre p m p' post' E A A'). congruence.
  - rewrite <- app_assoc in E. cbn [app] in E. apply (U pre' p' m p post E A' A). congruence.
Qed.

(** ** pass2 *)

Definition u_sym (s : symbol) : bool :=
  ((stype s =? STT_PROC) || (stype s =? STT_FUNC)) && negb (Z.land (sflags s) STF_UNDEFINED =? 0).

Lemma land1 x : Z.land x 1 = (if Z.odd x then 1 else 0).
Proof. change 1 with (Z.ones 1) at 1. rewrite Z.land_ones by lia. change (2 ^ 1) with 2. apply Zmod_odd. Qed.

Lemma u_sym_spec s : u_sym s = true <-> code_symbol s /\ undefined_symbol s.
Proof.
  unfold u_sym, code_symbol, undefined_symbol, STF_UNDEFINED. rewrite land1. destruct (Z.odd (sflags s)); cbn; lia.
Qed.

Lemma pass2_undef labels syms : forall i undef syms' u,
  pass2 labels i syms undef = Some (syms', u) ->
  exists t, u = undef ++ t /\
    (forall l x, In (l, x) t <-> exists k s, nth_error syms k = Some s /\ u_sym s = true /\ svalue s = l /\ x = i + Z.of_nat k) /\
    (forall l, 0 <= i -> 0 <= table_get t l ->
       exists k s, nth_error syms k = Some s /\ u_sym s = true /\ svalue s = l /\ table_get t l = i + Z.of_nat k /\
         forall j s', (j < k)%nat -> nth_error syms j = Some s' -> u_sym s' = true -> svalue s' <> l).
Proof.
  induction syms as [|s syms IH]; intros i undef syms' u H; cbn [pass2] in H.
  - injection H as <- <-. exists []. rewrite app_nil_r. split; [reflexivity|]. split.
    + intros l x. split; [intros []|]. intros (k & s & N & _). destruct k; discriminate N.
    + intros l _ H. cbn in H. lia.
  - destruct (u_sym s) eqn:U.
    + unfold u_sym in U. apply andb_true_iff in U. destruct U as [U1 U2]. rewrite U1, U2 in H.
      destruct (pass2 labels (i + 1) syms (table_add undef (svalue s) i)) as [[ss u']|] eqn:P; [|discriminate H].
      injection H as <- <-. destruct (IH _ _ _ _ P) as (t & -> & T1 & T2).
      exists ((svalue s, i) :: t). unfold table_add. rewrite <- app_assoc. split; [reflexivity|].
      assert (Us : u_sym s = true) by (unfold u_sym; rewrite U1, U2; reflexivity).
      split.
      * intros l x. cbn [In]. rewrite T1. split.
        -- intros [E|(k & s0 & N & A & B & C)].
           ++ injection E as <- <-. exists 0%nat, s. repeat split; try assumption. lia.
           ++ exists (S k), s0. repeat split; try assumption. lia.
        -- intros ([|k] & s0 & N & A & B & C).
           ++ injection N as ->. left. rewrite B. f_equal. lia.
           ++ right. exists k, s0. repeat split; try assumption. lia.
      * intros l Hi Hg. cbn [table_get] in *. destruct (svalue s =? l) eqn:E.
        -- exists 0%nat, s. repeat split; try assumption; try lia.
        -- destruct (T2 l ltac:(lia) Hg) as (k & s0 & N & A & B & C & D).
           exists (S k), s0. repeat split; try assumption; try lia.
           intros [|j] s' L N' A'; [injection N' as <-; lia|]. apply (D j s'); try assumption. lia.
    + assert (Us : u_sym s = false) by exact U. unfold u_sym in U.
      assert (K : exists ss, pass2 labels (i + 1) syms undef = Some (ss, u)).
      { destruct ((stype s =? STT_PROC) || (stype s =? STT_FUNC)).
        - cbn [andb] in U. rewrite U in H. destruct (table_get labels (svalue s) <? 0); [discriminate H|].
          destruct (pass2 labels (i + 1) syms undef) as [[ss u']|]; [|discriminate H]. injection H as <- <-. eexists; reflexivity.
        - destruct (pass2 labels (i + 1) syms undef) as [[ss u']|]; [|discriminate H]. injection H as <- <-. eexists; reflexivity. }
      destruct K as (ss & P). destruct (IH _ _ _ _ P) as (t & -> & T1 & T2).
      exists t. split; [reflexivity|]. split.
      * intros l x. rewrite T1. split.
        -- intros (k & s0 & N & A & B & C). exists (S k), s0. repeat split; try assumption. lia.
        -- intros ([|k] & s0 & N & A & B & C); [injection N as ->; congruence|]. exists k, s0. repeat split; try assumption. lia.
      * intros l Hi Hg. destruct (T2 l ltac:(lia) Hg) as (k & s0 & N & A & B & C & D).
        exists (S k), s0. repeat split; try assumption; try lia.
        intros [|j] s' L N' A'; [injection N' as <-; congruence|]. apply (D j s'); try assumption. lia.
Qed.

Lemma pass2_syms ops rels syms : forall i undef syms' u,
  pass2 (p1_labels (pass1 ops rels)) i syms undef = Some (syms', u) ->
  Forall2 (symbol_resolved ops) syms syms'.
Proof.
  induction syms as [|s syms IH]; intros i undef syms' u H; cbn [pass2] in H.
  - injection H as <- <-. constructor.
  - assert (SP := u_sym_spec s). unfold u_sym in SP.
    destruct ((stype s =? STT_PROC) || (stype s =? STT_FUNC)) eqn:C; cbn [andb] in SP.
    + destruct (negb (Z.land (sflags s) STF_UNDEFINED =? 0)) eqn:U.
      * destruct (pass2 _ (i + 1) syms _) as [[ss u']|] eqn:P; [|discriminate H].
        injection H as <- <-. constructor; [|apply (IH _ _ _ _ P)].
        destruct SP as [SP _]. specialize (SP eq_refl). unfold symbol_resolved. repeat split; tauto.
      * destruct (_ <? 0) eqn:L; [discriminate H|].
        destruct (pass2 _ (i + 1) syms _) as [[ss u']|] eqn:P; [|discriminate H].
        injection H as <- <-. constructor; [|apply (IH _ _ _ _ P)].
        assert (CS : code_symbol s) by (unfold code_symbol; lia).
        assert (NU : ~ undefined_symbol s) by (intros Un; destruct SP as [_ SP]; discriminate (SP (conj CS Un))).
        unfold symbol_resolved. cbn [stype sflags svalue]. split; [reflexivity|]. split; [reflexivity|]. split.
        -- intros _. apply get_label_some. lia.
        -- intros N. exfalso. apply N. split; assumption.
    + destruct (pass2 _ (i + 1) syms _) as [[ss u']|] eqn:P; [|discriminate H].
      injection H as <- <-. constructor; [|apply (IH _ _ _ _ P)].
      assert (CS : ~ code_symbol s) by (unfold code_symbol; lia). unfold symbol_resolved. repeat split; tauto.
Qed.

Lemma pass2_ok ops rels syms : forall i undef,
  (forall s, In s syms -> code_symbol s -> ~ undefined_symbol s -> has_label ops (svalue s)) ->
  exists r, pass2 (p1_labels (pass1 ops rels)) i syms undef = Some r.
Proof.
  induction syms as [|s syms IH]; intros i undef D; cbn [pass2]; [eexists; reflexivity|].
  assert (D' : forall s, In s syms -> code_symbol s -> ~ undefined_symbol s -> has_label ops (svalue s))
    by (intros s0 I; apply D; right; exact I).
  assert (SP := u_sym_spec s). unfold u_sym in SP.
  destruct ((stype s =? STT_PROC) || (stype s =? STT_FUNC)) eqn:C; cbn [andb] in SP.
  - destruct (negb (Z.land (sflags s) STF_UNDEFINED =? 0)) eqn:U.
    + destruct (IH (i + 1) (table_add undef (svalue s) i) D') as ([ss u] & E). rewrite E. eexists; reflexivity.
    + assert (CS : code_symbol s) by (unfold code_symbol; lia).
      assert (NU : ~ undefined_symbol s) by (intros Un; destruct SP as [_ SP]; discriminate (SP (conj CS Un))).
      assert (L := D s (or_introl eq_refl) CS NU). rewrite <- (get_label_iff ops rels) in L.
      replace (_ <? 0) with false by lia. destruct (IH (i + 1) undef D') as ([ss u] & E). rewrite E. eexists; reflexivity.
  - destruct (IH (i + 1) undef D') as ([ss u] & E). rewrite E. eexists; reflexivity.
Qed.

(** ** pass3 *)

Definition resolvable (p : opType) : Prop := ~ unsigned_branch (op p).

Lemma in_list_spec x l : in_list x l = true <-> In x l.
Proof.
  unfold in_list. rewrite existsb_exists. split.
  - intros (y & I & E). replace x with y by lia. exact I.
  - intros I. exists x. split; [exact I|lia].
Qed.

Lemma branch_split o : branch o <-> In o pass3_jumps \/ unsigned_branch o.
Proof. unfold branch, unsigned_branch, pass3_jumps. cbn [In]. tauto. Qed.

(** What pass3 does with one instruction, in terms of the tables *)
Section Pass3.
Variables (labels undef : list (Z * Z)).

Definition p3_one (p q : opType) : Prop :=
  (op p = oPCAL /\ 0 <= table_get labels (arg2 p) /\ q = mkOp (op p) (arg1 p) (u16 (table_get labels (arg2 p)))) \/
  (op p = oPCAL /\ table_get labels (arg2 p) < 0 /\ 0 <= table_get undef (arg2 p) /\ q = mkOp (op p) (arg1 p) 0) \/
  (op p <> oPCAL /\ In (op p) pass3_jumps /\ 0 <= table_get labels (arg2 p) /\
     q = mkOp (op p) (arg1 p) (u16 (table_get labels (arg2 p)))) \/
  (op p <> oPCAL /\ ~ In (op p) pass3_jumps /\ q = p).

Lemma pass3_spec ops : forall pc rels code rels',
  pass3 labels undef pc ops rels = Some (code, rels') ->
  Forall2 p3_one ops code /\
  exists new, rels' = rels ++ new /\
    forall r, In r new <-> exists pre p post, ops = pre ++ p :: post /\ op p = oPCAL /\
      table_get labels (arg2 p) < 0 /\ 0 <= table_get undef (arg2 p) /\
      r = mkRel (rli_make (table_get undef (arg2 p)) RLT_PCAL) (pc + code_size pre).
Proof.
  induction ops as [|p ops IH]; intros pc rels code rels' H; cbn [pass3] in H.
  - injection H as <- <-. split; [constructor|]. exists []. rewrite app_nil_r. split; [reflexivity|].
    intros r. split; [intros []|]. intros (pre & p & post & E & _). destruct pre; discriminate E.
  - assert (K : forall q new0 rels0,
       match pass3 labels undef (pc + op_size (op p)) ops rels0 with Some (l, r') => Some (q :: l, r') | None => None end = Some (code, rels') ->
       rels0 = rels ++ new0 -> p3_one p q ->
       (forall r, In r new0 <-> (op p = oPCAL /\ table_get labels (arg2 p) < 0 /\ 0 <= table_get undef (arg2 p) /\
          r = mkRel (rli_make (table_get undef (arg2 p)) RLT_PCAL) pc)) ->
       Forall2 p3_one (p :: ops) code /\
       exists new, rels' = rels ++ new /\
        forall r, In r new <-> exists pre p0 post, p :: ops = pre ++ p0 :: post /\ op p0 = oPCAL /\
          table_get labels (arg2 p0) < 0 /\ 0 <= table_get undef (arg2 p0) /\
          r = mkRel (rli_make (table_get undef (arg2 p0)) RLT_PCAL) (pc + code_size pre)).
    { intros q new0 rels0 H0 -> Q N0.
      destruct (pass3 labels undef (pc + op_size (op p)) ops (rels ++ new0)) as [[l r']|] eqn:P; [|discriminate H0].
      injection H0 as <- <-. destruct (IH _ _ _ _ P) as (F & new & -> & N).
      split; [constructor; assumption|]. exists (new0 ++ new). rewrite app_assoc. split; [reflexivity|].
      intros r. rewrite in_app_iff, N0, N. split.
      - intros [(A & B & C & D)|(pre & p0 & post & -> & A & B & C & D)].
        + exists [], p, ops. cbn [app code_size fold_right]. rewrite Z.add_0_r. repeat split; assumption.
        + exists (p :: pre), p0, post. cbn [app code_size fold_right]. fold (code_size pre).
          rewrite Z.add_assoc, <- op_size_length. repeat split; assumption.
      - intros ([|p1 pre] & p0 & post & E & A & B & C & D); cbn [app] in E.
        + injection E as <- <-. left. cbn [code_size fold_right] in D. rewrite Z.add_0_r in D. repeat split; assumption.
        + injection E as <- ->. right. exists pre, p0, post. cbn [code_size fold_right] in D. fold (code_size pre) in D.
          rewrite Z.add_assoc, <- op_size_length in D. repeat split; assumption. }
    destruct (op p =? oPCAL) eqn:E1.
    + destruct (0 <=? table_get labels (arg2 p)) eqn:E2.
      * apply (K _ [] _ H); [symmetry; apply app_nil_r|left; repeat split; lia|].
        intros r. split; [intros []|]. intros (_ & L & _). lia.
      * destruct (0 <=? table_get undef (arg2 p)) eqn:E3; [|discriminate H].
        apply (K _ [mkRel (rli_make (table_get undef (arg2 p)) RLT_PCAL) pc] _ H); [reflexivity|right; left; repeat split; lia|].
        intros r. cbn [In]. split.
        -- intros [<-|[]]. repeat split; lia.
        -- intros (_ & _ & _ & ->). left. reflexivity.
    + destruct (in_list (op p) pass3_jumps) eqn:E2.
      * apply in_list_spec in E2. destruct (0 <=? table_get labels (arg2 p)) eqn:E3; [|discriminate H].
        apply (K _ [] _ H); [symmetry; apply app_nil_r|right; right; left; repeat split; try assumption; lia|].
        intros r. split; [intros []|]. intros (X & _). lia.
      * assert (N2 : ~ In (op p) pass3_jumps) by (rewrite <- in_list_spec; congruence).
        apply (K _ [] _ H); [symmetry; apply app_nil_r|right; right; right; repeat split; try assumption; lia|].
        intros r. split; [intros []|]. intros (X & _). lia.
Qed.

Lemma pass3_ok ops : forall pc rels,
  (forall p, In p ops -> In (op p) pass3_jumps -> 0 <= table_get labels (arg2 p)) ->
  (forall p, In p ops -> op p = oPCAL -> 0 <= table_get labels (arg2 p) \/ 0 <= table_get undef (arg2 p)) ->
  exists r, pass3 labels undef pc ops rels = Some r.
Proof.
  induction ops as [|p ops IH]; intros pc rels J C; cbn [pass3]; [eexists; reflexivity|].
  assert (J' : forall p, In p ops -> In (op p) pass3_jumps -> 0 <= table_get labels (arg2 p)) by (intros q I; apply J; right; exact I).
  assert (C' : forall p, In p ops -> op p = oPCAL -> 0 <= table_get labels (arg2 p) \/ 0 <= table_get undef (arg2 p)) by (intros q I; apply C; right; exact I).
  destruct (op p =? oPCAL) eqn:E1.
  - destruct (C p (or_introl eq_refl) ltac:(lia)) as [L|L].
    + replace (0 <=? table_get labels (arg2 p)) with true by lia.
      destruct (IH (pc + op_size (op p)) rels J' C') as ([l r] & E). rewrite E. eexists; reflexivity.
    + replace (0 <=? table_get undef (arg2 p)) with true by lia.
      destruct (0 <=? table_get labels (arg2 p)).
      * destruct (IH (pc + op_size (op p)) rels J' C') as ([l r] & E). rewrite E. eexists; reflexivity.
      * destruct (IH (pc + op_size (op p)) (rels ++ [mkRel (rli_make (table_get undef (arg2 p)) RLT_PCAL) pc]) J' C') as ([l r] & E).
        rewrite E. eexists; reflexivity.
  - destruct (in_list (op p) pass3_jumps) eqn:E2.
    + apply in_list_spec in E2. pose proof (J p (or_introl eq_refl) E2).
      replace (0 <=? table_get labels (arg2 p)) with true by lia.
      destruct (IH (pc + op_size (op p)) rels J' C') as ([l r] & E). rewrite E. eexists; reflexivity.
    + destruct (IH (pc + op_size (op p)) rels J' C') as ([l r] & E). rewrite E. eexists; reflexivity.
Qed.
End Pass3.
