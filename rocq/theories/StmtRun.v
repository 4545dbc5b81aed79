(** Running the code of statements: composition and single instructions. *)

From Coq Require Import ZArith Bool List Lia ZifyBool.
From Verif Require Import Words WordLemmas State StateLemmas Opcodes EncodeModel SetModel LongModel Machine VmSpec VmProofs MemProofs MultiProofs
  OptSpec ExprModel ExprSpec ExprRun ExprOps ExprLoad ExprProofs StmtModel StmtSpec StmtPlain.
Import ListNotations.
Open Scope Z_scope.
Local Transparent rewrites.

(** ** Runs *)

Lemma runs_trans prog a b c : runs prog a b -> runs prog b c -> runs prog a c.
Proof. induction 1; intros; [assumption|]. econstructor; eauto. Qed.
Lemma runs_one prog a b : step prog a b -> runs prog a b.
Proof. intros H. econstructor; [exact H|constructor]. Qed.

Lemma stands_app prog i a b : stands prog i (a ++ b) -> stands prog i a /\ stands prog (i + length a) b.
Proof.
  intros H. split; intros k p K.
  - apply H. rewrite nth_error_app1; [exact K|]. apply nth_error_Some. congruence.
  - rewrite <- Nat.add_assoc. apply H. rewrite nth_error_app2 by lia. rewrite <- K. f_equal. lia.
Qed.
Lemma stands_cons prog i p ps : stands prog i (p :: ps) -> nth_error prog i = Some p /\ stands prog (S i) ps.
Proof.
  intros H. split.
  - rewrite <- (H 0%nat p eq_refl). f_equal. lia.
  - intros k q K. rewrite <- (H (S k) q K). f_equal. lia.
Qed.

Lemma plain_flow s p : plain p -> is_pseudo p = false /\ is_call p = false /\
  flow_op s p = match exec_insn s p with Ok s' => Falls s' | _ => Stops end.
Proof.
  unfold plain, plain_code, is_pseudo, is_call, flow_op, is_jump. intros H.
  change (existsb (Z.eqb (op p)) (oLABEL :: oLINE :: oPCAL :: oRET :: oINDS :: jump_codes)) with
    ((op p =? oLABEL) || ((op p =? oLINE) || ((op p =? oPCAL) || ((op p =? oRET) || ((op p =? oINDS) || existsb (Z.eqb (op p)) jump_codes))))) in H.
  rewrite !negb_orb in H. apply andb_true_iff in H. destruct H as (H1 & H). apply andb_true_iff in H. destruct H as (H2 & H).
  apply andb_true_iff in H. destruct H as (H5 & H). apply andb_true_iff in H. destruct H as (H6 & H).
  apply andb_true_iff in H. destruct H as (H3 & H4).
  apply negb_true_iff in H1, H2, H3, H5, H6. rewrite H1, H2, H3, H5, H6. split; [reflexivity|]. split; [reflexivity|].
  apply negb_true_iff in H4. rewrite H4. reflexivity.
Qed.

Lemma runs_plain prog ps : forall i s s', stands prog i ps -> Forall plain ps -> exec_list ps s = Ok s' ->
  runs prog (i, s) ((i + length ps)%nat, s').
Proof.
  induction ps as [|p ps IH]; intros i s s' H F E.
  - cbn in E. injection E as <-. cbn [length]. rewrite Nat.add_0_r. constructor.
  - apply stands_cons in H. destruct H as (H1 & H2). inversion F; subst. cbn [exec_list] in E.
    destruct (plain_flow s p) as (Q1 & Q3 & Q2); [assumption|].
    destruct (exec_insn s p) as [s1| | | |] eqn:X; try discriminate.
    eapply runs_step; [eapply step_falls; [exact H1|exact Q1|exact Q2|exact Q3]|].
    replace (i + length (p :: ps))%nat with (S i + length ps)%nat by (cbn [length]; lia). apply IH; assumption.
Qed.

(** ** Jumps and other instructions *)

Definition jumps_if (h : bool) (s : st) (l : Z) (f : flow) (k : Z) : Prop :=
  exists s', f = (if h then Jumps l s' else Falls s') /\ stack_effect s s' k [].

Lemma pop_effect s s' k : 0 <= k -> same_regs s s' -> sp s' = sp s - 2 * k -> (forall i, rd s' i = rd s i) -> stack_effect s s' k [].
Proof.
  intros K A B C. split; [exact A|]. split; [cbn [length]; lia|]. split; [intros [|j] v X; discriminate X|]. intros i _. apply C.
Qed.

Lemma same_regs_pc s s' p : same_regs (with_pc s p) s' -> same_regs s s'.
Proof. unfold same_regs. cbn. tauto. Qed.

Lemma jump_equz s w l : 0 <= sp s < 65536 -> 2 <= sp s -> tos s 0 = Some w ->
  jumps_if (w =? 0) s l (flow_op s (mkOp oJEQUZ 0 l)) 1.
Proof.
  intros S S2 T. pose proof (tos_range _ _ _ T) as W.
  destruct (jump_pairs1_correct oEQUZ oJEQUZ (with_pc s 0) w 0 0 0 (or_introl eq_refl) S T)
    as (s1 & s2 & b & E1 & T1 & B & E2 & P & R & X1 & X2 & M).
  destruct (unary_ops_correct oEQUZ any1 (sgn1 (fun x r => truth r (x = 0))) (with_pc s 0) w 0 0) as (s1' & r & E1' & R1 & F & _).
  { cbn; tauto. } { exact S. } { exact T. } { exact I. }
  rewrite E1 in E1'. injection E1' as <-.
  assert (T1' : tos s1 0 = Some r).
  { destruct F as (_ & F1 & F2 & _). specialize (F2 0%nat r eq_refl). cbn [length] in F1. unfold tos. rewrite <- F2. f_equal. lia. }
  assert (Hb : b = r) by congruence. subst r.
  destruct R1 as (x & (Sx & k & Hx) & Tr).
  assert (Hw : w = 0 <-> x = 0) by lia.
  unfold flow_op. change (is_jump (mkOp oJEQUZ 0 l)) with true. cbn [op arg1 arg2]. rewrite E2.
  exists s2. split.
  - rewrite P. change (u16 (pc (with_pc s 0) + 3)) with 3.
    destruct (w =? 0) eqn:Q.
    + destruct Tr as [(Tr & ->)|(Tr & ->)]; [reflexivity|]. lia.
    + destruct Tr as [(Tr & ->)|(Tr & ->)]; [lia|reflexivity].
  - apply pop_effect; [lia|apply (same_regs_pc s s2 0 R)| |exact M].
    rewrite X1, X2. cbn [sp with_pc]. rewrite Z.mod_small by lia. lia.
Qed.

Lemma jump_two c j (h : bool) s a b l : In (c, j) jump_pairs2 -> rewrites (mkOp c 0 0) 0 [a; b] [(if h then -1 else 0) mod 65536] ->
  room s 0 -> 4 <= sp s -> tops s [a; b] -> jumps_if h s l (flow_op s (mkOp j 0 l)) 2.
Proof.
  intros I R Rm S T. pose proof (room_sp s 0 Rm ltac:(lia)) as Rs.
  destruct (tops2 _ _ _ T) as (T1 & T0).
  destruct (jump_pairs2_correct c j (with_pc s 0) a b 0 0 0 I) as (s1 & s2 & r & E1 & U1 & B & E2 & P & Rg & X1 & X2 & M); [exact Rs|exact T1|exact T0|].
  destruct (R (with_pc s 0)) as (s1' & E1' & F).
  { exact Rm. } { cbn [length sp with_pc]. lia. } { exact T. }
  rewrite E1 in E1'. injection E1' as <-.
  assert (U1' : tos s1 0 = Some ((if h then -1 else 0) mod 65536)).
  { destruct F as (_ & F1 & F2 & _). specialize (F2 0%nat _ eq_refl). cbn [length] in F1. unfold tos. rewrite <- F2. f_equal. cbn [length] in *. lia. }
  rewrite U1 in U1'. injection U1' as Hr.
  assert (Ju : is_jump (mkOp j 0 l) = true).
  { cbn [In jump_pairs2] in I. repeat (destruct I as [I|I]; [injection I as <- <-; reflexivity|]). destruct I. }
  unfold flow_op. rewrite Ju. cbn [op arg1 arg2]. rewrite E2. exists s2. split.
  - rewrite P. change (u16 (pc (with_pc s 0) + 3)) with 3. rewrite Hr. destruct h; reflexivity.
  - apply pop_effect; [lia|apply (same_regs_pc s s2 0 Rg)| |exact M].
    rewrite X1, X2. cbn [sp with_pc]. rewrite Z.mod_small by lia. lia.
Qed.

Lemma jump_always s l : exists s', flow_op s (mkOp oJMP 0 l) = Jumps l s' /\ stack_effect s s' 0 [].
Proof.
  exists (with_pc s 0). split; [reflexivity|]. apply pop_effect; [lia| | |reflexivity].
  - unfold same_regs. cbn. tauto.
  - cbn. lia.
Qed.


(** ** Variables in memory *)

Lemma var_eqb_iff x y : var_eqb x y = true <-> x = y.
Proof.
  unfold var_eqb, same. destruct x as [t l o], y as [t' l' o']. cbn [vty vlev voff]. split.
  - intros H. apply andb_true_iff in H. destruct H as (H & O). apply andb_true_iff in H. destruct H as (H & L).
    destruct (teq t t') eqn:T; [|discriminate]. apply teq_true in T. f_equal; [exact T|lia|lia].
  - intros [= -> -> ->]. replace (teq t' t') with true by (symmetry; apply teq_true; reflexivity). lia.
Qed.
Lemma set_same r x z : set r x z x = z.
Proof. unfold set. replace (var_eqb x x) with true by (symmetry; apply var_eqb_iff; reflexivity). reflexivity. Qed.
Lemma set_other r x z y : y <> x -> set r x z y = r y.
Proof. intros N. unfold set. destruct (var_eqb y x) eqn:E; [|reflexivity]. apply var_eqb_iff in E. contradiction. Qed.

Lemma rd_of_bytes s s' i : cf s' = cf s -> c_ssz (cf s) mod 2 = 0 ->
  rdb s' (2 * i) = rdb s (2 * i) -> rdb s' (2 * i + 1) = rdb s (2 * i + 1) -> rd s' i = rd s i.
Proof.
  intros C E B1 B2. destruct (rd s i) as [v|] eqn:R.
  - pose proof R as R'. apply rd_some in R'. destruct R' as (R' & _). unfold in_word in R'.
    apply (copied_word s s' i i v); auto; lia.
  - unfold rd in *. rewrite (in_word_cf s s' i C). destruct (in_word s i); [discriminate|reflexivity].
Qed.

(** A variable is determined by its bytes. *)
Lemma contains_bytes s s' t a z : cf s' = cf s -> c_ssz (cf s) mod 2 = 0 -> (size_of t <> 1 -> a mod 2 = 0) ->
  (forall b, a <= b < a + size_of t -> rdb s' b = rdb s b) -> contains s t a z -> contains s' t a z.
Proof.
  intros C E A B H.
  assert (W : forall k, size_of t <> 1 -> 0 <= k -> 2 * k + 1 < size_of t -> rd s' (a / 2 + k) = rd s (a / 2 + k)).
  { intros k N K1 K2. specialize (A N). apply rd_of_bytes; auto; apply B; lia. }
  destruct t; cbn [contains size_of] in *;
    try (rewrite <- H; replace (a / 2) with (a / 2 + 0) by lia; apply W; lia).
  - destruct H as (v & (b & H1 & H2) & H3). exists v. split; [|exact H3]. exists b. rewrite B by lia. auto.
  - destruct H as (v & H1 & H3). exists v. split; [|exact H3]. cbn [element] in *. rewrite B by lia. auto.
  - destruct H as (H1 & H2 & H3). split; [exact H1|]. split.
    + rewrite <- H2. replace (a / 2) with (a / 2 + 0) by lia. apply W; lia.
    + rewrite <- H3. apply W; lia.
  - destruct H as (H1 & H2 & H3). split; [exact H1|]. split.
    + rewrite <- H2. replace (a / 2) with (a / 2 + 0) by lia. apply W; lia.
    + rewrite <- H3. apply W; lia.
  - destruct H as (v & H1 & H3). exists v. split; [|exact H3]. cbn [element] in *. rewrite B by lia. auto.
Qed.

Section Moves.
  Variables (lev : Z) (xs : list var) (adr : var -> Z) (links : Z -> Prop) (base : Z) (s0 : st).
  Hypothesis P : placed lev xs adr links base s0.
  Hypothesis Even : c_ssz (cf s0) mod 2 = 0.
  Notation ready := (ready xs adr links base s0).
  Notation holding := (holding xs adr).
  Notation within := (within adr).

  (** [s'] results from [s] by pushing [ws] and changing the variables to [r']. *)
  Definition moves (s s' : st) (ws : list Z) (r' : env) : Prop :=
    same_regs s s' /\ sp s' = sp s + 2 * Z.of_nat (length ws) /\
    (forall k v, nth_error ws k = Some v -> rd s' (sp s / 2 + 1 + Z.of_nat k) = Some v) /\
    (forall i, i <= sp s / 2 -> (forall x, In x xs -> ~ within x i) -> rd s' i = rd s i) /\
    holding s' r'.

  Lemma same_regs_refl s : same_regs s s.
  Proof. unfold same_regs. tauto. Qed.

  Lemma above_vars i : base < i -> forall x, In x xs -> ~ within x i.
  Proof. intros H x Hx (A & B). destruct (pl_vars _ _ _ _ _ _ P x Hx) as (C & D & _). lia. Qed.

  Lemma held s s' r : same_regs s0 s -> same_regs s s' -> (forall i, i <= base -> rd s' i = rd s i) -> holding s r -> holding s' r.
  Proof.
    intros S R H V x Hx. destruct (pl_vars _ _ _ _ _ _ P x Hx) as (C & D & A).
    destruct S as (S & _). destruct R as (R & _).
    apply (contains_bytes s s'); [exact R|rewrite S; exact Even|exact A| |apply V, Hx].
    intros b Hb. apply rd_rdb'; [exact R|rewrite S; exact Even|]. apply H. 
    assert (b / 2 <= (adr x + size_of (vty x) - 1) / 2) by (apply Z.div_le_mono; lia). lia.
  Qed.

  Lemma moves_refl s r : ready s r -> moves s s [] r.
  Proof.
    intros (A & B & C & D). split; [apply same_regs_refl|]. split; [cbn; lia|]. split; [intros [|k] v K; discriminate|]. auto.
  Qed.
  Lemma moves_ready s s' ws r r' : ready s r -> moves s s' ws r' -> ready s' r'.
  Proof.
    intros (A & B & C & D) (M1 & M2 & M3 & M4 & M5). split; [apply (same_regs_trans _ _ _ A M1)|]. split; [|split; [|exact M5]].
    - intros i L. destruct (pl_links _ _ _ _ _ _ P i L) as (L1 & L2). rewrite M4 by (auto; lia). apply B, L.
    - assert (sp s / 2 <= sp s' / 2) by (apply Z.div_le_mono; lia). lia.
  Qed.
  Lemma moves_trans s s1 s2 us ws r r1 r2 : ready s r -> moves s s1 us r1 -> moves s1 s2 ws r2 -> moves s s2 (us ++ ws) r2.
  Proof.
    intros (_ & _ & Rb & _) (A1 & A2 & A3 & A4 & A5) (B1 & B2 & B3 & B4 & B5). unfold moves. rewrite app_length.
    assert (E : sp s1 / 2 = sp s / 2 + Z.of_nat (length us)) by (rewrite A2; apply half_add).
    rewrite E in B3, B4.
    split; [apply (same_regs_trans _ _ _ A1 B1)|]. split; [lia|]. split; [|split; [|exact B5]].
    - intros k v K. rewrite nth_app in K. destruct (Nat.ltb_spec k (length us)).
      + rewrite B4; [apply A3; exact K|lia|]. apply above_vars. lia.
      + apply B3 in K. rewrite <- K. f_equal. lia.
    - intros i Hi N. rewrite B4 by (auto; lia). apply A4; auto.
  Qed.
  Lemma moves_pushed s s' ws r : ready s r -> pushed s s' ws -> moves s s' ws r.
  Proof.
    intros (A & B & C & D) (M1 & M2 & M3 & M4). split; [exact M1|]. split; [exact M2|]. split; [exact M3|]. split; [auto|].
    apply (held s s' r A M1); [|exact D]. intros i Hi. apply M4. lia.
  Qed.

  (** Instructions that change the top of the stack *)
  Lemma moves_top s s1 s2 us vs ws r r1 : ready s r -> moves s s1 (us ++ vs) r1 ->
    stack_effect s1 s2 (Z.of_nat (length vs)) ws -> moves s s2 (us ++ ws) r1.
  Proof.
    intros Rd (A1 & A2 & A3 & A4 & A5) (B1 & B2 & B3 & B4). pose proof Rd as (R1 & R2 & R3 & R4).
    rewrite app_length in A2. unfold moves. rewrite app_length.
    assert (E : sp s1 / 2 = sp s / 2 + Z.of_nat (length us) + Z.of_nat (length vs)).
    { rewrite A2. replace (sp s + 2 * Z.of_nat (length us + length vs))
        with (sp s + 2 * (Z.of_nat (length us) + Z.of_nat (length vs))) by lia.
      rewrite half_add. lia. }
    rewrite E in B3, B4.
    split; [apply (same_regs_trans _ _ _ A1 B1)|]. split; [lia|]. split; [|split].
    - intros k v K. rewrite nth_app in K. destruct (Nat.ltb_spec k (length us)).
      + rewrite B4 by lia. apply A3. rewrite nth_error_app1 by lia. exact K.
      + apply B3 in K. rewrite <- K. f_equal. lia.
    - intros i Hi N. rewrite B4 by lia. apply A4; [lia|exact N].
    - apply (held s1 s2 r1); [apply (same_regs_trans _ _ _ R1 A1)|exact B1| |exact A5].
      intros i Hi. apply B4. lia.
  Qed.

  Lemma moves_tops s s1 us vs r1 : moves s s1 (us ++ vs) r1 -> tops s1 vs.
  Proof using. clear P Even lev links base s0.
    intros (_ & E & H & _) k v K. rewrite app_length in E.
    replace (sp s1) with (sp s + 2 * (Z.of_nat (length us) + Z.of_nat (length vs))) by lia. rewrite half_add.
    rewrite <- (H (length us + k)%nat v).
    - f_equal. lia.
    - rewrite nth_error_app2 by lia. rewrite <- K. f_equal. lia.
  Qed.
  Lemma moves_room s s1 ws r1 k : moves s s1 ws r1 -> room s k -> room s1 (k - Z.of_nat (length ws)).
  Proof using. clear P Even lev links base s0. intros ((C & _) & E & _) (R1 & R2 & R3 & R4). unfold room. rewrite C. repeat split; auto; lia. Qed.

  (** The variables are where the expression compiler expects them. *)
  Lemma ready_located s r x : ready s r -> In x xs -> located lev s x (r x).
  Proof.
    intros (A & B & C & D) Hx s' R H. exists (adr x). destruct (pl_vars _ _ _ _ _ _ P x Hx) as (V1 & V2 & V3). split; [|split].
    - apply (pl_addr _ _ _ _ _ _ P); [apply (same_regs_trans _ _ _ A R)| |exact Hx].
      intros i L. destruct (pl_links _ _ _ _ _ _ P i L) as (L1 & _). rewrite H by lia. apply B, L.
    - lia.
    - apply (held s s' r A R); [|exact D|exact Hx]. intros i Hi. apply H. lia.
  Qed.

  Lemma run_expr prog i ps k ys ws s r : stands prog i ps -> Forall plain ps -> ready s r ->
    (forall x, In x ys -> In x xs) -> computes lev ps k ys r ws -> room s k ->
    exists s', runs prog (i, s) ((i + length ps)%nat, s') /\ moves s s' ws r.
  Proof.
    intros St F Rd I C Rm. destruct (C s Rm) as (s' & E & H).
    - intros x Hx. apply ready_located; auto.
    - exists s'. split; [apply runs_plain; assumption|apply moves_pushed; assumption].
  Qed.
End Moves.
