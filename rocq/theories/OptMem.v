(** popt_StackOrder, popt_LoadOptimize and popt_StoreOptimize *)

From Coq Require Import ZArith Bool List Lia ZifyBool.
From Verif Require Import Words State Opcodes SetModel LongModel Machine WordLemmas StateLemmas VmSpec VmProofs MemProofs
  EncodeSpec OptSpec OptStack OptPure OptStep OptFine OptUnary OptTable OptExcept OptUnaryStep OptBinary PoptModel.
Import ListNotations.
Open Scope Z_scope.
Ltac Zify.zify_post_hook ::= Z.div_mod_to_equations.

(** ------------------------------------------------------------------ *)
(** Instructions which push one word *)
Lemma loader_pexec s0 o : loader o -> exists ov, forall k, pexec s0 o k = p_opt ov k.
Proof.
  intros [[C W]|Hd].
  - exists (Some (arg2 (expand_push o))). intros k. rewrite (pexec_push s0 o k W C). cbn [p_opt].
    rewrite u16_word by apply (c_word o W). reflexivity.
  - exists (memval s0 o []). intros k. apply pexec_direct. exact Hd.
Qed.

Lemma load_kinds o : wf_op o -> check_load o = true -> loader o \/ op o = oLAR.
Proof.
  intros W C. unfold check_load in C. apply one_of_In in C.
  destruct (Z.eq_dec (op o) oLAR) as [E|E]; [right; exact E|left].
  destruct (check_push o) eqn:P; [left; split; assumption|right].
  assert (N : ~ In (op o) [oPUSH; oPUSHB; oUPUSHB]) by (intros H; apply one_of_In in H; unfold check_push in P; congruence).
  cbn [In direct] in *. intuition congruence.
Qed.

Section At.
  Variables (s0 : st) (k0 : list Z).
  Hypothesis S0 : start s0.
  Hypothesis T0 : top s0 s0 k0.
  Hypothesis L0 : length k0 = 4%nat.

  Lemma loader_fine o ks : loader o -> (forall i, reads s0 o i -> ~ (sp s0 / 2 < i <= sp s0 / 2 + DEPTH)) ->
    fine s0 o (ks ++ k0).
  Proof.
    intros [[C W]|Hd] Hr; [apply fine_plain, push_not_mem, C|]. apply fine_direct; assumption.
  Qed.

  (** one word more *)
  Lemma loader_step o : loader o -> (forall i, reads s0 o i -> ~ (sp s0 / 2 < i <= sp s0 / 2 + DEPTH)) ->
    (forall s ks, top s0 s (ks ++ k0) -> (length ks <= 3)%nat -> flow_op s o = Stops) \/
    (exists w, word w /\ forall s ks, top s0 s (ks ++ k0) -> (length ks <= 3)%nat ->
       exists s1, flow_op s o = Falls s1 /\ top s0 s1 (w :: ks ++ k0)).
  Proof.
    intros Ho Hr. destruct (loader_pexec s0 o Ho) as [[v|] E]; [right|left].
    - exists (u16 v). split; [apply u16_range|]. intros s ks T L.
      assert (Lk : (length (ks ++ k0) <= 7)%nat) by (rewrite app_length; lia).
      pose proof (step_sound s0 S0 s (ks ++ k0) o T ltac:(lia) (loader_fine o ks Ho Hr)) as H.
      rewrite E in H. cbn [p_opt] in H. unfold p_push in H. apply Nat.leb_le in Lk. rewrite Lk in H.
      destruct H as (s1 & E1 & T1 & _). exists s1. split; assumption.
    - intros s ks T L. assert (Lk : (length (ks ++ k0) <= 7)%nat) by (rewrite app_length; lia).
      pose proof (step_sound s0 S0 s (ks ++ k0) o T ltac:(lia) (loader_fine o ks Ho Hr)) as H.
      rewrite E in H. exact H.
  Qed.

  Lemma links_same s ks o off : top s0 s (ks ++ k0) -> 
    (forall i, reads_link s0 o i -> ~ (sp s0 / 2 < i <= sp s0 / 2 + DEPTH)) ->
    In (op o) [oLDS; oLDSB; oULDSB; oLAS; oSTS; oSTSB; oLDSM] ->
    get_base s (arg1 o) off = get_base s0 (arg1 o) off.
  Proof.
    intros T Hr Ho. destruct (top_regs _ _ _ T) as (_ & _ & Ef & _).
    apply get_base_same; [exact Ef|]. intros k g Hk R. apply (top_below s0 s ks k0 _ T0 T L0).
    apply Hr. econstructor; eauto.
  Qed.
End At.

(** ------------------------------------------------------------------ *)
(** Stores *)
Definition put (byte : bool) (s : st) (v a : Z) : option st := if byte then wrb s a v else putstack s v a.
Definition merge (byte : bool) (a v w : Z) : Z :=
  if byte then if a mod 2 =? 0 then w / 256 * 256 + u8 v else u8 v * 256 + w mod 256 else u16 v.

Lemma put_effect byte s v a : c_ssz (cf s) mod 2 = 0 ->
  match put byte s v a with
  | Some s1 => same_regs s s1 /\ sp s1 = sp s /\ (forall i, i <> a / 2 -> rd s1 i = rd s i) /\
      exists w, rd s (a / 2) = Some w /\ rd s1 (a / 2) = Some (merge byte a v w)
  | None => rd s (a / 2) = None
  end.
Proof.
  intros He. unfold put, putstack, wr, wrb, rd. destruct byte.
  - assert (Ei : in_byte s a = in_word s (a / 2)) by (unfold in_byte, in_word; lia). rewrite Ei.
    destruct (in_word s (a / 2)) eqn:Ew; [|reflexivity].
    split; [repeat split|]. split; [reflexivity|]. split.
    + intros i Hi. unfold in_word; cbn [cf mem with_mem]. rewrite word_set_byte_other by congruence. reflexivity.
    + exists (u16 (mem s (a / 2))). split; [reflexivity|]. unfold in_word in *; cbn [cf mem with_mem]. rewrite Ew.
      unfold set_byte, merge. rewrite upd_same. f_equal. pose proof (u16_range (mem s (a / 2))). 
      pose proof (u8_range v). destruct (a mod 2 =? 0); apply u16_small; lia.
  - destruct (in_word s (a / 2)) eqn:Ew; [|reflexivity].
    split; [repeat split|]. split; [reflexivity|]. split.
    + intros i Hi. unfold in_word; cbn [cf mem with_mem]. rewrite upd_other by congruence. reflexivity.
    + exists (u16 (mem s (a / 2))). split; [reflexivity|]. unfold in_word in *; cbn [cf mem with_mem]. rewrite Ew.
      rewrite upd_same, u16_u16. reflexivity.
Qed.

(** The same store in two states which agree outside of [D] *)
Lemma put_same (D : Z -> Prop) byte s s' v a s1 : c_ssz (cf s) mod 2 = 0 -> cf s' = cf s ->
  (forall i, ~ D i -> rd s' i = rd s i) -> put byte s v a = Some s1 -> ~ D (a / 2) \/ D (a / 2) ->
  exists s1', put byte s' v a = Some s1' /\ same_regs s' s1' /\ sp s1' = sp s' /\
    same_regs s s1 /\ sp s1 = sp s /\ forall i, ~ D i -> rd s1' i = rd s1 i.
Proof.
  intros He Ec HD E Hd. pose proof (put_effect byte s v a He) as H. rewrite E in H.
  destruct H as (R & Sp & Ho & w & Hw & Hm).
  pose proof (put_effect byte s' v a) as H'. rewrite Ec in H'. specialize (H' He).
  assert (Hin : exists w', rd s' (a / 2) = Some w').
  { unfold rd in *. rewrite (in_word_cf s s' _ Ec). destruct (in_word s (a / 2)); [eauto|discriminate]. }
  destruct (put byte s' v a) as [s1'|]; [|destruct Hin; congruence].
  destruct H' as (R' & Sp' & Ho' & w' & Hw' & Hm'). exists s1'. do 5 (split; [first [reflexivity|assumption]|]).
  intros i Hi. destruct (Z.eq_dec i (a / 2)) as [->|N].
  - rewrite Hm, Hm'. rewrite (HD _ Hi) in Hw'. congruence.
  - rewrite Ho, Ho' by assumption. apply HD, Hi.
Qed.

Definition store_codes : list Z := [oST; oSTB; oSTS; oSTSB].
Definition byte_store (o : opType) : bool := (op o =? oSTB) || (op o =? oSTSB).
Definition store_addr (s : st) (o : opType) : option Z :=
  if (op o =? oST) || (op o =? oSTB) then Some (u16 (c_spb (cf s) + arg2 o)) else get_base s (arg1 o) (s16 (arg2 o)).

Lemma flow_store s o : In (op o) store_codes ->
  flow_op s o = match store_addr s o, pop s with
                | Some a, Some (v, s') =>
                    match put (byte_store o) s' v a with
                    | Some s2 => Falls (with_pc s2 (u16 (pc s2 + (if (op o =? oST) || (op o =? oSTB) then 3 else 4))))
                    | None => Stops
                    end
                | _, _ => Stops
                end.
Proof.
  intros H. destruct o as [z x y]. cbn [op] in H. unfold store_codes in H. cbn [In] in H.
  unfold flow_op, store_addr, byte_store, put. 
  destruct H as [<-|[<-|[<-|[<-|[]]]]]; cbn [op arg1 arg2].
  - change (is_jump (mkOp oST x y)) with false. change (oST =? oINDS) with false. cbn [andb].
    change (exec_insn s (mkOp oST x y)) with (next 3 ('(v, s1) <- pop s ;; ret (putstack s1 v (u16 (c_spb (cf s) + y))))).
    cbn [oST oSTB Z.eqb Pos.eqb orb]. unfold pop. destruct (rd s (sp s / 2)); [|reflexivity]. cbn [bindo cf with_sp].
    destruct (putstack _ _ _); reflexivity.
  - change (is_jump (mkOp oSTB x y)) with false. change (oSTB =? oINDS) with false. cbn [andb].
    change (exec_insn s (mkOp oSTB x y)) with (next 3 ('(v, s1) <- pop s ;; ret (wrb s1 (u16 (c_spb (cf s) + y)) v))).
    cbn [oST oSTB Z.eqb Pos.eqb orb]. unfold pop. destruct (rd s (sp s / 2)); [|reflexivity]. cbn [bindo cf with_sp].
    destruct (wrb _ _ _); reflexivity.
  - change (is_jump (mkOp oSTS x y)) with false. change (oSTS =? oINDS) with false. cbn [andb].
    change (exec_insn s (mkOp oSTS x y)) with (next 4 (a <- get_base s x (s16 y) ;; '(v, s) <- pop s ;; ret (putstack s v a))).
    cbn [oST oSTB oSTS oSTSB Z.eqb Pos.eqb orb]. destruct (get_base s x (s16 y)); [|reflexivity]. cbn [bindo].
    unfold pop. destruct (rd s (sp s / 2)); [|reflexivity]. cbn [bindo].
    destruct (putstack _ _ _); reflexivity.
  - change (is_jump (mkOp oSTSB x y)) with false. change (oSTSB =? oINDS) with false. cbn [andb].
    change (exec_insn s (mkOp oSTSB x y)) with (next 4 (a <- get_base s x (s16 y) ;; '(v, s) <- pop s ;; ret (wrb s a v))).
    cbn [oST oSTB oSTS oSTSB Z.eqb Pos.eqb orb]. destruct (get_base s x (s16 y)); [|reflexivity]. cbn [bindo].
    unfold pop. destruct (rd s (sp s / 2)); [|reflexivity]. cbn [bindo].
    destruct (wrb _ _ _); reflexivity.
Qed.

Lemma flow_storex s b x y : 
  flow_op s (mkOp (if b : bool then oSTSXB else oSTSX) x y) =
  match pop s with
  | Some (v, s1) => match pop s1 with
    | Some (i, s2) => match get_base s2 x (s16 y) with
      | Some a => match put b s2 v (u16 (i + a)) with
                  | Some s3 => Falls (with_pc s3 (u16 (pc s3 + 4))) | None => Stops end
      | None => Stops end
    | None => Stops end
  | None => Stops end.
Proof.
  unfold flow_op, put. destruct b; cbn [op arg1 arg2].
  - change (is_jump (mkOp oSTSXB x y)) with false. change (oSTSXB =? oINDS) with false. cbn [andb].
    change (exec_insn s (mkOp oSTSXB x y)) with (next 4 ('(v, s) <- pop s ;; '(i, s) <- pop s ;; a <- get_base s x (s16 y) ;; ret (wrb s (u16 (i + a)) v))).
    destruct (pop s) as [[v s1]|]; [|reflexivity]. cbn [bindo]. destruct (pop s1) as [[i s2]|]; [|reflexivity]. cbn [bindo].
    destruct (get_base s2 x (s16 y)); [|reflexivity]. cbn [bindo]. destruct (wrb _ _ _); reflexivity.
  - change (is_jump (mkOp oSTSX x y)) with false. change (oSTSX =? oINDS) with false. cbn [andb].
    change (exec_insn s (mkOp oSTSX x y)) with (next 4 ('(v, s) <- pop s ;; '(i, s) <- pop s ;; a <- get_base s x (s16 y) ;; ret (putstack s v (u16 (i + a))))).
    destruct (pop s) as [[v s1]|]; [|reflexivity]. cbn [bindo]. destruct (pop s1) as [[i s2]|]; [|reflexivity]. cbn [bindo].
    destruct (get_base s2 x (s16 y)); [|reflexivity]. cbn [bindo]. destruct (putstack _ _ _); reflexivity.
Qed.

Lemma clean_reads s x y o : clean s (x ++ y) -> In o x \/ In o y ->
  forall i, reads s o i -> ~ (sp s / 2 < i <= sp s / 2 + DEPTH).
Proof. intros C H. apply (clean_app s _ C). apply in_or_app. exact H. Qed.

Lemma inds2 n : word n -> s16 n <= -2 -> s16 (u16 (n + 2)) = s16 n + 2.
Proof. intros W H. pose proof (s16_range n). rewrite (s16_sum n 2); rewrite (s16_small 2) by lia; lia. Qed.

(** what is pushed last is dropped *)
Lemma refines_drop a n : word n -> s16 n <= -2 ->
  (forall s k, start s -> top s s k -> length k = 4%nat ->
     (forall i, reads s a i -> ~ (sp s / 2 < i <= sp s / 2 + DEPTH)) ->
     flow_op s a = Stops \/ exists s1 w, flow_op s a = Falls s1 /\ top s s1 (w :: k)) ->
  refines [a; mkOp oINDS 0 n] [mkOp oINDS 0 (u16 (n + 2))].
Proof.
  intros Wn Hn H s R Hsp C _. assert (S0 : start s) by (split; assumption).
  destruct (start_top s S0) as (v0 & v1 & v2 & v3 & T). cbn [flow_list].
  destruct (H s _ S0 T eq_refl) as [E|(s1 & w & E & T1)].
  { apply (clean_reads s _ _ a C). left. left. reflexivity. }
  { rewrite E. exact I. }
  rewrite E. rewrite (flow_inds s1 n Wn), (flow_inds s _ (u16_range _)), (inds2 n Wn Hn).
  destruct (top_regs _ _ _ T1) as (Ec & E2 & E3 & E4 & E5). pose proof (top_sp _ _ _ T1) as Es. unfold DEPTH in Es. cbn [length] in Es.
  rewrite Ec. replace (sp s1 + s16 n) with (sp s + (s16 n + 2)) by lia.
  destruct ((0 <=? sp s + (s16 n + 2)) && (sp s + (s16 n + 2) <? c_ssz (cf s))) eqn:Eb; [|exact I].
  eexists. split; [reflexivity|]. split; [repeat split; symmetry; assumption|].
  split; [reflexivity|].
  intros i Hi. change (rd s i = rd s1 i). symmetry. apply (top_below s s1 [w] [v0; v1; v2; v3] i T T1 eq_refl).
  cbn [sp with_pc with_sp] in Hi. destruct R as (R1 & R2 & R3 & R4). rewrite u16_small in Hi by lia. lia.
Qed.

Lemma load_pushes a s k : wf_op a -> check_load a = true \/ op a = oDUP -> start s -> top s s k -> length k = 4%nat ->
  (forall i, reads s a i -> ~ (sp s / 2 < i <= sp s / 2 + DEPTH)) ->
  flow_op s a = Stops \/ exists s1 w, flow_op s a = Falls s1 /\ top s s1 (w :: k).
Proof.
  intros W Ha S0 T L Hr.
  assert (HP : (exists v, pexec s a k = p_push v k) /\ ~ In (op a) mem_codes \/ loader a).
  { destruct Ha as [Ha|Ha].
    - destruct (load_kinds a W Ha) as [Hl|Hl]; [right; exact Hl|left].
      split; [|rewrite Hl; cbn; intuition discriminate].
      eexists. rewrite (pexec_24 s a k LAR) by (rewrite Hl; reflexivity). reflexivity.
    - left. split; [|rewrite Ha; cbn; intuition discriminate].
      destruct k as [|v k]; [discriminate|]. exists (u16 v).
      rewrite (pexec_8 s a _ DUP) by (rewrite Ha; reflexivity). reflexivity. }
  destruct HP as [[[v E] N]|Hl].
  - pose proof (step_sound s S0 s k a T ltac:(lia) (fine_plain s a k N)) as H. rewrite E in H. unfold p_push in H.
    rewrite L in H. cbn [Nat.leb] in H. destruct H as (s1 & E1 & T1 & _). right. eauto.
  - destruct (loader_step s k S0 T L a Hl Hr) as [E|(w & Ww & E)].
    + left. apply (E s [] T). cbn. lia.
    + right. destruct (E s [] T ltac:(cbn; lia)) as (s1 & E1 & T1). eauto.
Qed.

(** XCHG of two loads *)
Lemma refines_xchg z a b : loader z -> loader a -> op b = oXCHG -> refines [z; a; b] [a; z].
Proof.
  intros Hz Ha Hb. change [z; a; b] with ([z; a] ++ [b]). change [a; z] with ([a; z] ++ []). apply rule_load.
  - repeat (constructor; [assumption|]). constructor.
  - repeat (constructor; [assumption|]). constructor.
  - intros o Ho. cbn [app In] in Ho. destruct Ho as [<-|[]]. rewrite Hb. cbn; intuition discriminate.
  - intros. cbn [app prun]. destruct (loader_pexec s0 z Hz) as [vz Ez]. destruct (loader_pexec s0 a Ha) as [va Ea].
    rewrite Ez, Ea. destruct vz as [vz|]; [|left; reflexivity]. cbn [p_opt p_push length Nat.leb]. rewrite Ea.
    destruct va as [va|]; cbn [p_opt p_push length Nat.leb]; [|left; reflexivity].
    rewrite (pexec_8 s0 b _ XCHG) by (rewrite Hb; reflexivity). rewrite Ez. cbn [p_opt p_push length Nat.leb p8].
    right. split; [reflexivity|discriminate].
Qed.

(** the same load twice *)
Lemma refines_same a : loader a -> refines [a; a] [a; mkOp oDUP 0 0].
Proof.
  intros Ha. change [a; a] with ([a; a] ++ []). change [a; mkOp oDUP 0 0] with ([a] ++ [mkOp oDUP 0 0]). apply rule_load.
  - repeat (constructor; [assumption|]). constructor.
  - repeat (constructor; [assumption|]). constructor.
  - intros o Ho. cbn [app In] in Ho. destruct Ho as [<-|[]]. cbn; intuition discriminate.
  - intros. cbn [app prun]. destruct (loader_pexec s0 a Ha) as [va Ea].
    rewrite Ea. destruct va as [va|]; cbn [p_opt p_push length Nat.leb]; [|left; reflexivity]. rewrite Ea.
    rewrite (pexec_8 s0 (mkOp oDUP 0 0) _ DUP) by reflexivity. cbn [p_opt p_push length Nat.leb p8].
    rewrite u16_u16. right. split; [reflexivity|discriminate].
Qed.

(** a constant index *)
Lemma refines_index a b y : wf_op a -> check_push a = true -> In (op y) direct ->
  (forall s k, memval s b (arg2 (expand_push a) :: k) = memval s y []) ->
  (forall s0 k, (length k <= 7)%nat -> pexec s0 b (arg2 (expand_push a) :: k) = p_opt (memval s0 b (arg2 (expand_push a) :: k)) k) ->
  refines [a; b] [y].
Proof.
  intros Wa Ca Hy Hm Hp s R Hsp C _. assert (S0 : start s) by (split; assumption).
  destruct (start_top s S0) as (v0 & v1 & v2 & v3 & T). set (k0 := [v0; v1; v2; v3]) in *.
  assert (Fy : forall ks, fine s y (ks ++ k0)).
  { intros ks. apply fine_direct; try assumption; [|reflexivity]. apply (clean_reads s _ _ y C). right. left. reflexivity. }
  assert (My : forall q k, memval q y k = memval q y []).
  { intros q k. clear - Hy. destruct y as [z x w]. cbn [op direct In] in Hy.
    destruct Hy as [<-|[<-|[<-|[<-|[<-|[<-|[<-|[<-|[<-|[]]]]]]]]]]; reflexivity. }
  eapply (run_matches s S0 [a; b] [y] k0 T); [cbn; lia| | |].
  - cbn [all_fine]. split; [apply fine_plain, push_not_mem, Ca|]. rewrite (pexec_push s a _ Wa Ca). unfold k0. cbn [p_push length Nat.leb].
    split.
    + intros q Tq. rewrite !Hm. rewrite <- (My q (arg2 (expand_push a) :: k0)), <- (My s (arg2 (expand_push a) :: k0)).
      apply (Fy [_]). exact Tq.
    + destruct (pexec s b _); exact I.
  - cbn [all_fine]. split; [apply (Fy [])|]. destruct (pexec s y _); exact I.
  - cbn [prun]. rewrite (pexec_push s a _ Wa Ca). unfold k0. cbn [p_push length Nat.leb].
    rewrite Hp by (cbn; lia). rewrite Hm, (pexec_direct s y _ Hy). destruct (memval s y []) as [w|]; [|left; reflexivity].
    cbn [p_opt p_push length Nat.leb]. right. split; [reflexivity|discriminate].
Qed.

(** ------------------------------------------------------------------ *)
Section StoreRules.
  Variable s : st.
  Hypothesis R : room s DEPTH.
  Hypothesis Hsp : 2 * DEPTH <= sp s.
  Let S0 : start s := conj R Hsp.
  Variables v0 v1 v2 v3 : Z.
  Let k0 := [v0; v1; v2; v3].
  Hypothesis T : top s s k0.

  Lemma store_addr_same s1 ks o : top s s1 (ks ++ k0) -> In (op o) store_codes ->
    (forall i, reads_link s o i -> ~ (sp s / 2 < i <= sp s / 2 + DEPTH)) -> store_addr s1 o = store_addr s o.
  Proof.
    intros T1 Ho Hr. destruct (top_regs _ _ _ T1) as (Ec & _). unfold store_addr. rewrite Ec.
    destruct ((op o =? oST) || (op o =? oSTB)) eqn:E; [reflexivity|].
    apply (links_same s k0 T eq_refl s1 ks o); [exact T1|exact Hr|].
    unfold store_codes in Ho. cbn [In] in *. 
    destruct Ho as [Ho|[Ho|[Ho|[Ho|[]]]]]; rewrite <- Ho in E; try discriminate; tauto.
  Qed.

  Lemma dup_flow : exists s1, flow_op s (mkOp oDUP 0 0) = Falls s1 /\ top s s1 (v0 :: k0).
  Proof.
    pose proof (step_sound s S0 s k0 (mkOp oDUP 0 0) T ltac:(cbn; lia)) as H.
    rewrite (pexec_8 s (mkOp oDUP 0 0) k0 DUP eq_refl) in H. unfold k0 in H. cbn [p8 p_push length Nat.leb] in H.
    rewrite u16_word in H by (eapply (top_val s s _ 0 v0 T); reflexivity).
    destruct H as (s1 & E & T1 & _); [apply fine_plain; cbn; intuition discriminate|]. eauto.
  Qed.

  (** DUP; store; drop *)
  Lemma dup_store_drop o n : In (op o) store_codes -> word n -> s16 n <= -2 ->
    clean s ([mkOp oDUP 0 0; o; mkOp oINDS 0 n] ++ [o; mkOp oINDS 0 (u16 (n + 2))]) ->
    matches (sp s / 2 + DEPTH) (flow_list [mkOp oDUP 0 0; o; mkOp oINDS 0 n] s)
      (flow_list [o; mkOp oINDS 0 (u16 (n + 2))] s).
  Proof.
    intros Ho Wn Hn C. cbn [flow_list]. destruct dup_flow as (s1 & E1 & T1). rewrite E1.
    assert (Hr : forall i, reads_link s o i -> ~ (sp s / 2 < i <= sp s / 2 + DEPTH)).
    { intros i Hi. eapply (clean_reads s _ _ o C); [left; right; left; reflexivity|]. apply reads_links, Hi. }
    rewrite (flow_store s1 o Ho), (flow_store s o Ho), (store_addr_same s1 [v0] o T1 Ho Hr).
    destruct (store_addr s o) as [a|]; [|exact I].
    destruct (top_pop s S0 s1 k0 v0 T1) as [P1 T2]; [cbn; lia|].
    destruct (top_pop s S0 s [v1; v2; v3] v0 T) as [P2 T3]; [cbn; lia|]. rewrite P1, P2.
    set (s1' := with_sp s1 (u16 (sp s1 - 2))) in *. set (s' := with_sp s (u16 (sp s - 2))) in *.
    destruct (put (byte_store o) s1' v0 a) as [s2|] eqn:Ep; [|exact I].
    destruct (top_regs _ _ _ T2) as (Ec & G2 & G3 & G4 & G5). destruct R as (R1 & R2 & R3 & R4).
    destruct (put_same (fun i => sp s / 2 < i <= sp s / 2 + DEPTH) (byte_store o) s1' s' v0 a s2) as (s2' & Ep' & A1 & A2 & A3 & A4 & A5).
    { rewrite Ec. exact R4. } { rewrite Ec. reflexivity. }
    { intros i Hi. symmetry. change (rd s' i) with (rd s i). apply (top_below s s1' [] k0 i T T2 eq_refl Hi). }
    { exact Ep. } { lia. }
    rewrite Ep'. set (d := if (op o =? oST) || (op o =? oSTB) then 3 else 4).
    rewrite (flow_inds _ n Wn), (flow_inds _ _ (u16_range _)), (inds2 n Wn Hn). cbn [sp with_pc cf].
    destruct A1 as (B1 & B2 & B3 & B4 & B5). destruct A3 as (D1 & D2 & D3 & D4 & D5). rewrite A2, A4, B1, D1, Ec.
    pose proof (top_sp _ _ _ T2) as Es. pose proof (top_sp _ _ _ T3) as Es3. unfold DEPTH in Es, Es3. unfold k0 in Es. cbn [length] in Es, Es3.
    change (cf s') with (cf s). replace (sp s' + (s16 n + 2)) with (sp s1' + s16 n) by lia.
    destruct ((0 <=? sp s1' + s16 n) && (sp s1' + s16 n <? c_ssz (cf s))) eqn:Eb; [|exact I].
    eexists. split; [reflexivity|]. split.
    { unfold same_regs. cbn [with_sp with_pc cf csp fp lsp fch].
      change (csp s') with (csp s) in *. change (fp s') with (fp s) in *. change (lsp s') with (lsp s) in *. change (fch s') with (fch s) in *.
      change (cf s') with (cf s) in *.
      repeat split; congruence. }
    split; [reflexivity|]. intros i Hi. cbn [sp with_sp with_pc] in Hi. rewrite u16_small in Hi by lia.
    change (rd s2' i = rd s2 i). apply A5. lia.
  Qed.
End StoreRules.

(** store and load again *)
Lemma flow_load s g x y : 
  flow_op s (mkOp (if g : bool then oLD else oLDS) x y) =
  match store_addr s (mkOp (if g then oST else oSTS) x y) with
  | Some a => match rd s (a / 2) with
    | Some v => match push s v with
      | Some s1 => Falls (with_pc s1 (u16 (pc s1 + (if g then 3 else 4)))) | None => Stops end
    | None => Stops end
  | None => Stops end.
Proof.
  unfold flow_op, store_addr. destruct g; cbn [op arg1 arg2].
  - change (is_jump (mkOp oLD x y)) with false. change (oLD =? oINDS) with false. cbn [andb].
    change (exec_insn s (mkOp oLD x y)) with (next 3 (v <- getstack s (u16 (c_spb (cf s) + y)) ;; ret (push s v))).
    cbn [oST oSTB Z.eqb Pos.eqb orb]. unfold getstack. destruct (rd s _); [|reflexivity]. cbn [bindo]. destruct (push _ _); reflexivity.
  - change (is_jump (mkOp oLDS x y)) with false. change (oLDS =? oINDS) with false. cbn [andb].
    change (exec_insn s (mkOp oLDS x y)) with (next 4 (a <- get_base s x (s16 y) ;; v <- getstack s a ;; ret (push s v))).
    cbn [oSTS oST oSTB Z.eqb Pos.eqb orb]. destruct (get_base _ _ _); [|reflexivity]. cbn [bindo]. unfold getstack.
    destruct (rd s _); [|reflexivity]. cbn [bindo]. destruct (push _ _); reflexivity.
Qed.

Section StoreRules2.
  Variable s : st.
  Hypothesis R : room s DEPTH.
  Hypothesis Hsp : 2 * DEPTH <= sp s.
  Let S0 : start s := conj R Hsp.
  Variables v0 v1 v2 v3 : Z.
  Let k0 := [v0; v1; v2; v3].
  Hypothesis T : top s s k0.

  Lemma store_load_dup (g : bool) x y :
    let o := mkOp (if g then oST else oSTS) x y in let l := mkOp (if g then oLD else oLDS) x y in
    clean s ([o; l] ++ [mkOp oDUP 0 0; o]) ->
    matches (sp s / 2 + DEPTH) (flow_list [o; l] s) (flow_list [mkOp oDUP 0 0; o] s).
  Proof.
    intros o l C. assert (Ho : In (op o) store_codes) by (unfold o; destruct g; cbn; tauto).
    assert (Eb : byte_store o = false) by (unfold o; destruct g; reflexivity).
    assert (Hr : forall i, reads_link s o i -> ~ (sp s / 2 < i <= sp s / 2 + DEPTH)).
    { intros i Hi. eapply (clean_reads s _ _ o C); [left; left; reflexivity|]. apply reads_links, Hi. }
    destruct (dup_flow s R Hsp v0 v1 v2 v3 T) as (s1 & E1 & T1).
    cbn [flow_list]. rewrite E1. rewrite (flow_store s o Ho), (flow_store s1 o Ho).
    rewrite (store_addr_same s v0 v1 v2 v3 T s1 [v0] o T1 Ho Hr).
    destruct (store_addr s o) as [a|] eqn:Ea; [|exact I].
    destruct (top_pop s S0 s1 k0 v0 T1) as [P1 T2]; [cbn; lia|].
    destruct (top_pop s S0 s [v1; v2; v3] v0 T) as [P2 T3]; [cbn; lia|]. rewrite P1, P2, Eb. 
    set (s1' := with_sp s1 (u16 (sp s1 - 2))) in *. set (s' := with_sp s (u16 (sp s - 2))) in *.
    destruct (put false s' v0 a) as [s2|] eqn:Ep; [|exact I].
    destruct R as (R1 & R2 & R3 & R4). destruct (top_regs _ _ _ T2) as (Ec & G2 & G3 & G4 & G5).
    pose proof (put_effect false s' v0 a R4) as H. rewrite Ep in H. destruct H as (A1 & A2 & A3 & w & A4 & A5).
    set (d := if (op o =? oST) || (op o =? oSTB) then 3 else 4).
    unfold l. rewrite flow_load. fold o.
    assert (Hv : word v0) by (eapply (top_val s s _ 0 v0 T); reflexivity).
    (* the address is still the same *)
    assert (Ea2 : store_addr (with_pc s2 (u16 (pc s2 + d))) o = Some a).
    { rewrite <- Ea. unfold store_addr, o. destruct A1 as (B1 & B2 & B3 & _). cbn [op arg1 arg2 cf with_pc]. rewrite B1. change (cf s') with (cf s).
      destruct g; cbn [oST oSTB oSTS Z.eqb Pos.eqb orb]; [reflexivity|].
      apply get_base_same; [cbn [fp with_pc]; rewrite B3; reflexivity|]. intros k h Hk Rh. change (rd s2 (h / 2) = rd s (h / 2)).
      rewrite A3; [reflexivity|]. intros Eh. destruct C as [_ C2].
      assert (Ea' : get_base s x (s16 y) = Some a) by (clear - Ea; exact Ea).
      apply (C2 o l (a / 2)); [left; reflexivity|right; left; reflexivity| |].
      + eapply stores_frame; [unfold o; cbn; tauto|apply get_base_ea; exact Ea'|reflexivity].
      + econstructor; [unfold l; cbn; tauto|exact Hk|exact Rh|congruence]. }
    rewrite Ea2. change (rd (with_pc s2 (u16 (pc s2 + d))) (a / 2)) with (rd s2 (a / 2)). rewrite A5. cbn [merge].
    rewrite (u16_word v0) by exact Hv.
    destruct A1 as (B1 & B2 & B3 & B4 & B5).
    pose proof (top_sp _ _ _ T2) as Es. pose proof (top_sp _ _ _ T3) as Es3. unfold DEPTH in Es, Es3. unfold k0 in Es. cbn [length] in Es, Es3.
    (* the store of the new code *)
    assert (Hin : rd s1' (a / 2) <> None).
    { change (rd s' (a / 2)) with (rd s (a / 2)) in A4. unfold rd in *. rewrite (in_word_cf s s1' _ Ec). destruct (in_word s (a / 2)); congruence. }
    pose proof (put_effect false s1' v0 a) as H. rewrite Ec in H. specialize (H R4).
    destruct (put false s1' v0 a) as [t|]; [|contradiction]. destruct H as (F1 & F2 & F3 & w' & F4 & F5). destruct F1 as (I1 & I2 & I3 & I4 & I5).
    (* the push *)
    set (q := with_pc s2 (u16 (pc s2 + d))). assert (Eq : sp q = sp s - 2) by (unfold q; cbn [sp with_pc]; rewrite A2; lia).
    assert (Ecq : cf q = cf s) by (unfold q; cbn [cf with_pc]; rewrite B1; reflexivity).
    unfold push. cbv zeta. cbn [sp with_sp]. rewrite Eq. replace (sp s - 2 + 2) with (sp s) by lia. rewrite (u16_small (sp s)) by (unfold DEPTH in *; lia).
    assert (Hw : in_word (with_sp q (sp s)) (sp s / 2) = true) by (apply in_word_iff; cbn [cf with_sp]; rewrite Ecq; clear - R1 R2 R3 R4; unfold DEPTH in *; lia).
    rewrite (wr_in _ _ _ Hw). cbn [matches].
    eexists. split; [reflexivity|]. split.
    { unfold same_regs. cbn [cf csp fp lsp fch with_pc with_sp with_mem]. 
      change (cf s') with (cf s) in *. change (csp s') with (csp s) in *. change (fp s') with (fp s) in *. change (lsp s') with (lsp s) in *. change (fch s') with (fch s) in *.
      unfold q. cbn [cf csp fp lsp fch with_pc].
      repeat split; congruence. }
    split.
    { cbn [sp with_pc with_sp with_mem]. lia. }
    cbn [sp with_pc with_sp with_mem]. intros i Hi.
    change (rd t i = (if in_word q i then Some (u16 (upd (mem q) (sp s / 2) (u16 v0) i)) else None)).
    assert (Elow : rd s (sp s / 2) = Some v0).
    { pose proof (top_words _ _ _ T 0%nat v0 eq_refl) as H. rewrite Z.sub_0_r in H. exact H. }
    destruct (Z.eq_dec i (sp s / 2)) as [->|N1].
    - rewrite upd_same, u16_u16, u16_word by exact Hv. change (in_word q (sp s / 2)) with (in_word (with_sp q (sp s)) (sp s / 2)). rewrite Hw.
      destruct (Z.eq_dec (sp s / 2) (a / 2)) as [->|N2].
      + rewrite F5. cbn [merge]. rewrite u16_word by exact Hv. reflexivity.
      + rewrite F3 by exact N2. rewrite (top_below s s1' [] k0 _ T T2 eq_refl) by lia. exact Elow.
    - rewrite upd_other by exact N1. change (if in_word q i then Some (u16 (mem q i)) else None) with (rd s2 i).
      destruct (Z.eq_dec i (a / 2)) as [->|N2].
      + rewrite F5, A5. reflexivity.
      + rewrite F3, A3 by exact N2. change (rd s' i) with (rd s i). apply (top_below s s1' [] k0 _ T T2 eq_refl). exact Hi.
  Qed.

  (** a store with a constant index *)
  Lemma push_storex a b (byte : bool) x y r : wf_op a -> check_push a = true -> loader b ->
    word y -> word r -> u16 (y + arg2 (expand_push a)) = r -> sign16 y = sign16 r ->
    let o := mkOp (if byte then oSTSXB else oSTSX) x y in let n := mkOp (if byte then oSTSB else oSTS) x r in
    clean s ([a; b; o] ++ [b; n]) ->
    matches (sp s / 2 + DEPTH) (flow_list [a; b; o] s) (flow_list [b; n] s).
  Proof.
    intros Wa Ca Lb Wy Wr Er Esg o n C. set (c := arg2 (expand_push a)) in *.
    assert (Wc : word c) by (apply c_word; exact Wa).
    assert (Hra : forall i, reads s a i -> ~ (sp s / 2 < i <= sp s / 2 + DEPTH)) by (apply (clean_reads s _ _ a C); left; left; reflexivity).
    assert (Hrb : forall i, reads s b i -> ~ (sp s / 2 < i <= sp s / 2 + DEPTH)) by (apply (clean_reads s _ _ b C); left; right; left; reflexivity).
    assert (Hrn : forall i, reads_link s n i -> ~ (sp s / 2 < i <= sp s / 2 + DEPTH)).
    { intros i Hi. eapply (clean_reads s _ _ n C); [right; right; left; reflexivity|]. apply reads_links, Hi. }
    assert (Hn : In (op n) store_codes) by (unfold n; destruct byte; cbn; tauto).
    assert (Hnl : In (op n) [oLDS; oLDSB; oULDSB; oLAS; oSTS; oSTSB; oLDSM]) by (unfold n; destruct byte; cbn; tauto).
    cbn [flow_list].
    assert (exists s1, flow_op s a = Falls s1 /\ top s s1 (c :: k0)) as (s1 & E1 & T1).
    { pose proof (step_sound s S0 s k0 a T ltac:(cbn; lia) (fine_plain s a k0 (push_not_mem a Ca))) as H.
      rewrite (pexec_push s a k0 Wa Ca) in H. unfold k0 in H. cbn [p_push length Nat.leb] in H. destruct H as (s1 & E & T1 & _). eauto. }
    rewrite E1. destruct (loader_step s k0 S0 T eq_refl b Lb Hrb) as [E|(w & Ww & E)].
    { rewrite (E s1 [c] T1) by (cbn; lia). exact I. }
    destruct (E s1 [c] T1 ltac:(cbn; lia)) as (s2 & E2 & T2). rewrite E2.
    destruct (E s [] T ltac:(cbn; lia)) as (t1 & F1 & U1). rewrite F1. cbn [app] in *.
    unfold o. rewrite flow_storex. rewrite (flow_store t1 n Hn).
    destruct (top_pop s S0 s2 (c :: k0) w T2) as [P2 T3]; [cbn; lia|]. rewrite P2.
    destruct (top_pop s S0 _ k0 c T3) as [P3 T4]; [cbn; lia|]. rewrite P3.
    destruct (top_pop s S0 t1 k0 w U1) as [Q1 U2]; [cbn; lia|]. rewrite Q1.
    set (s4 := with_sp (with_sp s2 _) _) in *. set (t2 := with_sp t1 _) in *.
    assert (Ead : store_addr t1 n = get_base t1 x (s16 r)).
    { unfold store_addr, n. destruct byte; reflexivity. }
    rewrite Ead. change x with (arg1 n). rewrite (links_same s k0 T eq_refl t1 [w] n (s16 r) U1 Hrn Hnl).
    rewrite (links_same s k0 T eq_refl s4 [] n (s16 y) T4 Hrn Hnl). change (arg1 n) with x.
    assert (Eb : byte_store n = byte) by (unfold n; destruct byte; reflexivity). rewrite Eb.
    assert (Eg : get_base s x (s16 r) = match get_base s x (s16 y) with Some g => Some (u16 (c + g)) | None => None end).
    { unfold get_base. destruct (follow_links s (Z.to_nat x) (fp s)) as [g|]; [|reflexivity]. cbn [bindO]. cbv zeta.
      rewrite !s16_sign by assumption. rewrite <- Esg. 
      destruct (proj1 (u16_eq_iff (y + c) r)) as [j Ej]; [rewrite Er; symmetry; apply u16_word, Wr|].
      unfold sign16 in *. unfold word in *. f_equal. destruct (y <? 32768) eqn:Ey.
      - replace (0 <=? y) with true by lia. replace (0 <=? r) with true by lia. clear - Ej. unfold u16, FBASE. lia.
      - replace (0 <=? y - 65536) with false by lia. replace (0 <=? r - 65536) with false by lia.
        rewrite u16_add_r. apply (u16_congr _ _ (- j)). lia. }
    rewrite Eg. destruct (get_base s x (s16 y)) as [g|]; [|exact I].
    destruct (put byte s4 w (u16 (c + g))) as [s5|] eqn:Ep; [|exact I].
    destruct R as (R1 & R2 & R3 & R4). destruct (top_regs _ _ _ T4) as (Ec & G2 & G3 & G4 & G5). destruct (top_regs _ _ _ U2) as (Fc & H2 & H3 & H4 & H5).
    destruct (put_same (fun i => sp s / 2 < i <= sp s / 2 + DEPTH) byte s4 t2 w (u16 (c + g)) s5) as (t3 & Ep' & A1 & A2 & A3 & A4 & A5).
    { rewrite Ec. exact R4. } { congruence. }
    { intros i Hi. rewrite (top_below s s4 [] k0 i T T4 eq_refl Hi), (top_below s t2 [] k0 i T U2 eq_refl Hi). reflexivity. }
    { exact Ep. } { lia. }
    rewrite Ep'. destruct A1 as (B1 & B2 & B3 & B4 & B5). destruct A3 as (D1 & D2 & D3 & D4 & D5).
    pose proof (top_sp _ _ _ T4) as Es. pose proof (top_sp _ _ _ U2) as Es'. unfold DEPTH in Es, Es'. unfold k0 in Es, Es'. cbn [length] in Es, Es'.
    eexists. split; [reflexivity|]. split.
    { unfold same_regs. cbn [with_sp with_pc cf csp fp lsp fch]. repeat split; congruence. }
    split; [cbn [sp with_pc]; lia|]. cbn [sp with_pc]. intros i Hi. change (rd t3 i = rd s5 i). apply A5. 
    rewrite A4 in Hi. replace (sp s4) with (sp s) in Hi by lia. exact Hi.
  Qed.
End StoreRules2.
