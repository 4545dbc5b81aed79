(** Proofs about loads, stores, jumps, calls and returns. *)

From Coq Require Import ZArith Bool List Lia ZifyBool.
From Verif Require Import Words State Opcodes SetModel LongModel Machine WordLemmas StateLemmas VmSpec VmProofs.
Import ListNotations.
Open Scope Z_scope.
Ltac Zify.zify_post_hook ::= Z.div_mod_to_equations.

(** ** Stack primitives *)

Lemma in_word_sp s v i : in_word (with_sp s v) i = in_word s i. Proof. reflexivity. Qed.
Lemma rd_sp s v i : rd (with_sp s v) i = rd s i. Proof. reflexivity. Qed.

Lemma push_ok s v : 0 <= sp s -> sp s + 2 < c_ssz (cf s) -> c_ssz (cf s) <= 65536 ->
  c_ssz (cf s) mod 2 = 0 ->
  push s v = Some (with_mem (with_sp s (sp s + 2)) (upd (mem s) (sp s / 2 + 1) (u16 v))).
Proof.
  intros H0 H1 H2 He. unfold push. cbn [sp with_sp]. rewrite (u16_small (sp s + 2)) by lia.
  rewrite wr_in by (apply in_word_iff; cbn [cf with_sp]; lia).
  cbn [mem with_sp]. replace ((sp s + 2) / 2) with (sp s / 2 + 1) by lia. reflexivity.
Qed.

Lemma push_effect s v : room s 1 -> 0 <= v < 65536 ->
  exists s', push s v = Some s' /\ stack_effect s s' 0 [v] /\ pc s' = pc s.
Proof.
  intros (H0 & H1 & H2 & He) Hv. rewrite push_ok by lia. eexists; split; [reflexivity|]. split; [|reflexivity].
  unfold stack_effect, same_regs. cbn [cf csp fp lsp fch sp with_mem with_sp length nth_error].
  repeat split; try lia.
  - intros [|[|k]] v'; cbn [nth_error]; [|discriminate|discriminate]. intros [= <-].
    unfold rd. replace (in_word _ _) with true by (symmetry; apply in_word_iff; cbn [cf with_mem with_sp]; lia).
    cbn [mem with_mem with_sp]. replace (sp s / 2 - 0 + 1 + Z.of_nat 0) with (sp s / 2 + 1) by lia.
    rewrite upd_same, u16_u16, u16_small by lia. reflexivity.
  - intros i Hne. unfold rd, in_word; cbn [cf mem with_mem with_sp]. rewrite upd_other by lia. reflexivity.
Qed.

Lemma puttos0_effect s v w : tos s 0 = Some w -> 0 <= v < 65536 ->
  exists s', puttos s 0 v = Some s' /\ stack_effect s s' 1 [v] /\ pc s' = pc s.
Proof.
  intros H Hv. destruct (unary_effect (fun _ => v) s w H) as (s' & E & F & P).
  exists s'. unfold unary in E. rewrite H in E. cbn [bindo] in E. unfold ret in E.
  destruct (puttos s 0 v); [|discriminate]. injection E as ->.
  rewrite u16_small in F by exact Hv. auto.
Qed.

(** ** Loads *)

Lemma s8_word v b : 0 <= b < 256 -> u16 (s8 b) = v <-> word16 v (if b <? 128 then b else b - 256).
Proof.
  intros Hb. rewrite word16_iff. unfold s8, u8. rewrite Z.mod_small by lia. split; intros H; symmetry; exact H.
Qed.

Lemma rdb_range s a v : rdb s a = Some v -> 0 <= v < 256.
Proof. unfold rdb; destruct (in_byte s a); [intros [= <-]; apply byte_range|discriminate]. Qed.

Lemma element_range s w a v : element s w a v -> 0 <= v < 65536.
Proof.
  destruct w; cbn [element].
  - apply rd_range.
  - intros (b & Hb & [H _]). lia.
  - intros H%rdb_range. lia.
Qed.

Lemma follow_reaches s k f g : reaches s f k g -> follow_links s k f = Some g.
Proof.
  induction 1 as [f|f g h k Hl Hr IH]; cbn [follow_links]; [reflexivity|].
  unfold slink in Hl. rewrite Hl. cbn [bindO]. exact IH.
Qed.
Lemma reaches_follow s k : forall f g, follow_links s k f = Some g -> reaches s f k g.
Proof.
  induction k as [|k IH]; cbn [follow_links]; intros f g.
  - intros [= <-]. constructor.
  - destruct (rd s (f / 2)) as [h|] eqn:E; cbn [bindO]; [|discriminate]. intros H. econstructor; eauto.
Qed.

Lemma get_base_ok s lvl off g : reaches s (fp s) (Z.to_nat lvl) g ->
  get_base s lvl off = Some (if 0 <=? off then u16 (u16 (g + off) + FBASE) else u16 (g + off)).
Proof.
  intros H. unfold get_base. rewrite (follow_reaches _ _ _ _ H). reflexivity.
Qed.

Lemma frame_ea_base s lvl off a : frame_ea s lvl off 0 a -> get_base s lvl (s16 off) = Some a.
Proof.
  intros (g & z & Hr & Hz & Hw). apply signed16_unique in Hz. subst z.
  rewrite (get_base_ok _ _ _ _ Hr). apply word16_iff in Hw. subst a. f_equal.
  destruct (0 <=? s16 off) eqn:E.
  - replace (s16 off >=? 0) with true by lia. rewrite u16_add_l. f_equal. unfold FBASE. lia.
  - replace (s16 off >=? 0) with false by lia. f_equal. lia.
Qed.

Lemma frame_ea_store s lvl off idx a : frame_ea s lvl off idx a ->
  exists b, get_base s lvl (s16 off) = Some b /\ u16 (idx + b) = a.
Proof.
  intros (g & z & Hr & Hz & Hw). apply signed16_unique in Hz. subst z.
  rewrite (get_base_ok _ _ _ _ Hr). apply word16_iff in Hw. subst a. eexists; split; [reflexivity|].
  destruct (0 <=? s16 off) eqn:E.
  - replace (s16 off >=? 0) with true by lia. rewrite u16_add_r.
    replace (idx + (u16 (g + s16 off) + FBASE)) with (u16 (g + s16 off) + (idx + 10)) by (unfold FBASE; lia).
    rewrite u16_add_l. f_equal. lia.
  - replace (s16 off >=? 0) with false by lia. rewrite u16_add_r. f_equal. lia.
Qed.

(** The indexed loads decide on the sign of offset plus index. *)
Lemma frame_ea_loadx s lvl off idx a : frame_ea s lvl off idx a ->
  (forall z, signed16 off z -> 0 <= z \/ z + idx < 0) -> 0 <= idx ->
  get_base s lvl (s16 off + idx) = Some a.
Proof.
  intros (g & z & Hr & Hz & Hw) Hc Hi. specialize (Hc z Hz). apply signed16_unique in Hz. subst z.
  rewrite (get_base_ok _ _ _ _ Hr). apply word16_iff in Hw. subst a. f_equal.
  destruct (s16 off >=? 0) eqn:E.
  - replace (0 <=? s16 off + idx) with true by lia. rewrite u16_add_l. f_equal. unfold FBASE. lia.
  - replace (0 <=? s16 off + idx) with false by lia. f_equal. lia.
Qed.

Lemma ret_next n s (x : option st) r k :
  (exists s', x = Some s' /\ stack_effect s s' k [r] /\ pc s' = pc s) ->
  exists s', next n (ret x) = Ok s' /\ stack_effect s s' k [r] /\ pc s' = u16 (pc s + n).
Proof.
  intros (s' & -> & F & P). cbn [ret next]. eexists; split; [reflexivity|].
  rewrite P. split; [apply effect_with_pc, F|reflexivity].
Qed.

(** Common part of the loads that push / replace the index *)
Ltac load_push s Hroom Hv :=
  apply ret_next; apply push_effect; [exact Hroom|exact Hv].

Lemma elem_word s a v : element s Word a v -> getstack s a = Some v.
Proof. exact (fun H => H). Qed.
Lemma elem_ubyte s a v : element s UByte a v -> rdb s a = Some v.
Proof. exact (fun H => H). Qed.
Lemma elem_sbyte s a v : element s SByte a v -> exists b, rdb s a = Some b /\ u16 (s8 b) = v.
Proof.
  intros (b & Hb & Hw). exists b; split; [exact Hb|]. apply s8_word; [|exact Hw].
  eapply rdb_range; eauto.
Qed.

Lemma global_ea_u16 s imm idx a : global_ea s imm idx a -> u16 (c_spb (cf s) + imm + idx) = a.
Proof. intros H%word16_iff; symmetry; exact H. Qed.
Lemma global_ea_u16_0 s imm a : global_ea s imm 0 a -> u16 (c_spb (cf s) + imm) = a.
Proof. intros H%global_ea_u16. rewrite <- H. f_equal. lia. Qed.

Ltac step_eq E := rewrite E; cbn [bindo].

Lemma load_ops_correct c len w ix EA s imm8 imm16 idx a v :
  In (c, len, w, ix, EA) load_ops ->
  room s (if ix then 0 else 1) -> (ix = true -> tos s 0 = Some idx) ->
  EA s imm8 imm16 idx a -> element s w a v ->
  exists s', exec_insn s (mkOp c imm8 imm16) = Ok s' /\
    stack_effect s s' (if ix then 1 else 0) [v] /\ pc s' = u16 (pc s + len).
Proof.
  intros Hin Hroom Hix HEA Hel. pose proof (element_range _ _ _ _ Hel) as Hv.
  cbn [In load_ops] in Hin.
  repeat (destruct Hin as [Hin|Hin];
    [injection Hin; intros <- <- <- <- <-; clear Hin; cbv beta in HEA;
     try specialize (Hix eq_refl)|]); [..|destruct Hin].
  - change (exec_insn s _) with (next 3 (exec24 LD s imm16)). cbn [exec24].
    rewrite (global_ea_u16_0 _ _ _ HEA). step_eq (elem_word _ _ _ Hel). load_push s Hroom Hv.
  - change (exec_insn s _) with (next 3 (exec24 LDB s imm16)). cbn [exec24].
    rewrite (global_ea_u16_0 _ _ _ HEA).
    destruct (elem_sbyte _ _ _ Hel) as (b & Hb & Hbv). step_eq Hb. rewrite Hbv. load_push s Hroom Hv.
  - change (exec_insn s _) with (next 3 (exec24 ULDB s imm16)). cbn [exec24].
    rewrite (global_ea_u16_0 _ _ _ HEA). step_eq (elem_ubyte _ _ _ Hel). load_push s Hroom Hv.
  - change (exec_insn s _) with (next 3 (exec24 LDX s imm16)). cbn [exec24].
    step_eq Hix. rewrite (global_ea_u16 _ _ _ _ HEA). step_eq (elem_word _ _ _ Hel).
    apply ret_next. eapply puttos0_effect; eauto.
  - change (exec_insn s _) with (next 3 (exec24 LDXB s imm16)). cbn [exec24].
    step_eq Hix. rewrite (global_ea_u16 _ _ _ _ HEA).
    destruct (elem_sbyte _ _ _ Hel) as (b & Hb & Hbv). step_eq Hb. rewrite Hbv.
    apply ret_next. eapply puttos0_effect; eauto.
  - change (exec_insn s _) with (next 3 (exec24 ULDXB s imm16)). cbn [exec24].
    step_eq Hix. rewrite (global_ea_u16 _ _ _ _ HEA). step_eq (elem_ubyte _ _ _ Hel).
    apply ret_next. eapply puttos0_effect; eauto.
  - change (exec_insn s _) with (next 4 (exec32 LDS s imm8 imm16)). cbn [exec32].
    step_eq (frame_ea_base _ _ _ _ HEA). step_eq (elem_word _ _ _ Hel). load_push s Hroom Hv.
  - change (exec_insn s _) with (next 4 (exec32 LDSB s imm8 imm16)). cbn [exec32].
    step_eq (frame_ea_base _ _ _ _ HEA).
    destruct (elem_sbyte _ _ _ Hel) as (b & Hb & Hbv). step_eq Hb. rewrite Hbv. load_push s Hroom Hv.
  - change (exec_insn s _) with (next 4 (exec32 ULDSB s imm8 imm16)). cbn [exec32].
    step_eq (frame_ea_base _ _ _ _ HEA). step_eq (elem_ubyte _ _ _ Hel). load_push s Hroom Hv.
  - change (exec_insn s _) with (next 1 (exec8 LDI s)). cbn [exec8]. unfold indirect_ea in HEA. subst a.
    step_eq Hix. step_eq (elem_word _ _ _ Hel). apply ret_next. eapply puttos0_effect; eauto.
  - change (exec_insn s _) with (next 1 (exec8 LDIB s)). cbn [exec8]. unfold indirect_ea in HEA. subst a.
    step_eq Hix. destruct (elem_sbyte _ _ _ Hel) as (b & Hb & Hbv). step_eq Hb. rewrite Hbv.
    apply ret_next. eapply puttos0_effect; eauto.
  - change (exec_insn s _) with (next 1 (exec8 ULDIB s)). cbn [exec8]. unfold indirect_ea in HEA. subst a.
    step_eq Hix. step_eq (elem_ubyte _ _ _ Hel). apply ret_next. eapply puttos0_effect; eauto.
Qed.

Lemma frame_loadx_correct c w s imm8 imm16 idx a v :
  In (c, w) frame_loadx_ops -> tos s 0 = Some idx ->
  frame_ea s imm8 imm16 idx a -> (forall z, signed16 imm16 z -> 0 <= z \/ z + idx < 0) ->
  element s w a v ->
  exists s', exec_insn s (mkOp c imm8 imm16) = Ok s' /\
    stack_effect s s' 1 [v] /\ pc s' = u16 (pc s + 4).
Proof.
  intros Hin Hix HEA Hc Hel. pose proof (element_range _ _ _ _ Hel) as Hv.
  pose proof (tos_range _ _ _ Hix) as Hr.
  pose proof (frame_ea_loadx _ _ _ _ _ HEA Hc (proj1 Hr)) as HB.
  cbn [In frame_loadx_ops] in Hin.
  repeat (destruct Hin as [Hin|Hin]; [injection Hin; intros <- <-; clear Hin|]); [..|destruct Hin].
  - change (exec_insn s _) with (next 4 (exec32 LDSX s imm8 imm16)). cbn [exec32].
    step_eq Hix. step_eq HB. step_eq (elem_word _ _ _ Hel). apply ret_next. eapply puttos0_effect; eauto.
  - change (exec_insn s _) with (next 4 (exec32 LDSXB s imm8 imm16)). cbn [exec32].
    step_eq Hix. step_eq HB. destruct (elem_sbyte _ _ _ Hel) as (b & Hb & Hbv). step_eq Hb. rewrite Hbv.
    apply ret_next. eapply puttos0_effect; eauto.
  - change (exec_insn s _) with (next 4 (exec32 ULDSXB s imm8 imm16)). cbn [exec32].
    step_eq Hix. step_eq HB. step_eq (elem_ubyte _ _ _ Hel). apply ret_next. eapply puttos0_effect; eauto.
Qed.

(** ** Stores *)

Lemma tos_pop s k : 2 <= sp s < 65536 -> tos (with_sp s (u16 (sp s - 2))) k = tos s (k + 1).
Proof. intros H. replace 2 with (2 * 1) by reflexivity. rewrite tos_drop by lia. f_equal. lia. Qed.

Definition store_val (s : st) (byte : bool) (v a : Z) : option st :=
  if byte then wrb s a v else putstack s v a.

Lemma store_val_ok s byte v a : target_ok s byte a -> 0 <= v < 65536 ->
  exists s', store_val s byte v a = Some s' /\ only_stored s s' byte a v /\
    same_regs s s' /\ sp s' = sp s /\ pc s' = pc s.
Proof.
  intros Ht Hv. destruct byte; cbn [store_val target_ok] in *.
  - unfold wrb. rewrite Ht. eexists; split; [reflexivity|]. unfold same_regs. repeat split.
    + unfold rdb. cbn [cf with_mem]. change (in_byte (with_mem s (set_byte (mem s) a v)) a) with (in_byte s a).
      rewrite Ht. cbn [mem with_mem]. rewrite set_byte_same. reflexivity.
    + intros b Hb. unfold rdb. change (in_byte (with_mem s (set_byte (mem s) a v)) b) with (in_byte s b).
      cbn [mem with_mem]. rewrite set_byte_other by exact Hb. reflexivity.
  - unfold putstack. rewrite (wr_in _ _ _ Ht). eexists; split; [reflexivity|]. unfold same_regs. repeat split.
    + unfold rd. change (in_word (with_mem s (upd (mem s) (a / 2) (u16 v))) (a / 2)) with (in_word s (a / 2)).
      rewrite Ht. cbn [mem with_mem]. rewrite upd_same, u16_u16, u16_small by lia. reflexivity.
    + intros i Hi. unfold rd. change (in_word (with_mem s (upd (mem s) (a / 2) (u16 v))) i) with (in_word s i).
      cbn [mem with_mem]. rewrite upd_other by exact Hi. reflexivity.
Qed.

Lemma only_stored_sp s k s' byte a v : only_stored (with_sp s k) s' byte a v -> only_stored s s' byte a v.
Proof. destruct byte; exact (fun H => H). Qed.
Lemma same_regs_sp s k s' : same_regs (with_sp s k) s' -> same_regs s s'.
Proof. exact (fun H => H). Qed.

Lemma store_next n s j byte v a : target_ok s byte a -> 0 <= v < 65536 ->
  exists s', next n (ret (store_val (with_sp s j) byte v a)) = Ok s' /\
    only_stored s s' byte a v /\ same_regs s s' /\ sp s' = j /\ pc s' = u16 (pc s + n).
Proof.
  intros Ht Hv. destruct (store_val_ok (with_sp s j) byte v a) as (s' & E & H1 & H2 & H3 & H4);
    [destruct byte; exact Ht|exact Hv|].
  rewrite E. cbn [ret next]. eexists; split; [reflexivity|]. rewrite H4.
  split; [destruct byte; exact H1|]. split; [exact H2|]. split; [exact H3|reflexivity].
Qed.

Lemma with_sp_sp s i j : with_sp (with_sp s i) j = with_sp s j. Proof. reflexivity. Qed.

Lemma get_base_sp s k lvl off : get_base (with_sp s k) lvl off = get_base s lvl off.
Proof.
  unfold get_base. cbn [fp with_sp]. f_equal.
  generalize (fp s). induction (Z.to_nat lvl) as [|n IH]; intros f; cbn [follow_links]; [reflexivity|].
  rewrite rd_sp. destruct (rd s (f / 2)); cbn [bindO]; [apply IH|reflexivity].
Qed.

Lemma store_ops_correct c len byte ix EA s imm8 imm16 idx a v :
  In (c, len, byte, ix, EA) store_ops ->
  0 <= sp s < 65536 -> tos s 0 = Some v -> (ix = true -> tos s 1 = Some idx) ->
  EA s imm8 imm16 idx a -> target_ok s byte a ->
  exists s', exec_insn s (mkOp c imm8 imm16) = Ok s' /\
    only_stored s s' byte a v /\ same_regs s s' /\
    sp s' = (sp s - (if ix then 4 else 2)) mod 65536 /\ pc s' = u16 (pc s + len).
Proof.
  intros Hin Hs Hv0 Hix HEA Ht. pose proof (tos_range _ _ _ Hv0) as Hv.
  assert (Hp1 : pop s = Some (v, with_sp s (u16 (sp s - 2)))) by (apply pop_eq; exact Hv0).
  assert (Hp2 : ix = true -> pop (with_sp s (u16 (sp s - 2))) = Some (idx, with_sp s (u16 (sp s - 4)))).
  { intros Hx. specialize (Hix Hx). pose proof (tos_sp _ _ _ Hix).
    rewrite (pop_eq _ idx).
    - cbn [sp with_sp]. rewrite with_sp_sp. rewrite u16_sub_l. replace (sp s - 2 - 2) with (sp s - 4) by lia. reflexivity.
    - rewrite tos_pop by lia. exact Hix. }
  cbn [In store_ops] in Hin.
  repeat (destruct Hin as [Hin|Hin];
    [injection Hin; intros <- <- <- <- <-; clear Hin; cbv beta in HEA;
     try specialize (Hp2 eq_refl)|]); [..|destruct Hin].
  - change (exec_insn s _) with (next 3 (exec24 ST s imm16)). cbn [exec24].
    step_eq Hp1. rewrite (global_ea_u16_0 _ _ _ HEA). apply (store_next 3 s _ false v a Ht Hv).
  - change (exec_insn s _) with (next 3 (exec24 STB s imm16)). cbn [exec24].
    step_eq Hp1. rewrite (global_ea_u16_0 _ _ _ HEA). apply (store_next 3 s _ true v a Ht Hv).
  - change (exec_insn s _) with (next 3 (exec24 STX s imm16)). cbn [exec24].
    step_eq Hp1. step_eq Hp2.
    replace (idx + (c_spb (cf s) + imm16)) with (c_spb (cf s) + imm16 + idx) by lia.
    rewrite (global_ea_u16 _ _ _ _ HEA). apply (store_next 3 s _ false v a Ht Hv).
  - change (exec_insn s _) with (next 3 (exec24 STXB s imm16)). cbn [exec24].
    step_eq Hp1. step_eq Hp2.
    replace (idx + (c_spb (cf s) + imm16)) with (c_spb (cf s) + imm16 + idx) by lia.
    rewrite (global_ea_u16 _ _ _ _ HEA). apply (store_next 3 s _ true v a Ht Hv).
  - change (exec_insn s _) with (next 4 (exec32 STS s imm8 imm16)). cbn [exec32].
    step_eq (frame_ea_base _ _ _ _ HEA). step_eq Hp1. apply (store_next 4 s _ false v a Ht Hv).
  - change (exec_insn s _) with (next 4 (exec32 STSB s imm8 imm16)). cbn [exec32].
    step_eq (frame_ea_base _ _ _ _ HEA). step_eq Hp1. apply (store_next 4 s _ true v a Ht Hv).
  - change (exec_insn s _) with (next 4 (exec32 STSX s imm8 imm16)). cbn [exec32].
    step_eq Hp1. step_eq Hp2. rewrite get_base_sp.
    destruct (frame_ea_store _ _ _ _ _ HEA) as (b & Hb & Hba). step_eq Hb. rewrite Hba.
    apply (store_next 4 s _ false v a Ht Hv).
  - change (exec_insn s _) with (next 4 (exec32 STSXB s imm8 imm16)). cbn [exec32].
    step_eq Hp1. step_eq Hp2. rewrite get_base_sp.
    destruct (frame_ea_store _ _ _ _ _ HEA) as (b & Hb & Hba). step_eq Hb. rewrite Hba.
    apply (store_next 4 s _ true v a Ht Hv).
  - change (exec_insn s _) with (next 1 (exec8 STI s)). cbn [exec8]. unfold indirect_ea in HEA; subst a.
    step_eq Hp1. step_eq Hp2. apply (store_next 1 s _ false v idx Ht Hv).
  - change (exec_insn s _) with (next 1 (exec8 STIB s)). cbn [exec8]. unfold indirect_ea in HEA; subst a.
    step_eq Hp1. step_eq Hp2. apply (store_next 1 s _ true v idx Ht Hv).
Qed.

(** ** Jumps *)

Lemma jump_pairs1_correct c j s a x y target :
  In (c, j) jump_pairs1 -> 0 <= sp s < 65536 -> tos s 0 = Some a ->
  exists s1 s2 b, exec_insn s (mkOp c x y) = Ok s1 /\ tos s1 0 = Some b /\ (b = 65535 \/ b = 0) /\
    exec_insn s (mkOp j x target) = Ok s2 /\
    pc s2 = (if b =? 65535 then target else u16 (pc s + 3)) /\
    same_regs s s2 /\ sp s2 = (sp s1 - 2) mod 65536 /\ sp s1 = sp s /\ (forall i, rd s2 i = rd s i).
Proof.
  intros Hin Hs H.
  assert (Hc : forall f, exists s1, next 1 (cmpz f s) = Ok s1 /\ tos s1 0 = Some (pbool (f (s16 a))) /\ sp s1 = sp s).
  { intros f. destruct (cmpz_ok f s a Hs H) as (s1 & E & (_ & F1 & F2 & _) & P).
    rewrite E. cbn [next]. eexists; split; [reflexivity|].
    specialize (F2 O _ eq_refl). cbn [length] in F1. split; [|cbn [sp with_pc]; lia].
    unfold tos. cbn [sp with_pc]. replace (sp s1 / 2 - 0) with (sp s / 2 - 1 + 1 + Z.of_nat 0) by lia. exact F2. }
  assert (Hj : forall f, jumpz f s target =
     Ok (with_pc (with_sp s (u16 (sp s - 2))) (if f (s16 a) then target else u16 (pc s + 3)))).
  { intros f. unfold jumpz. rewrite (pop_eq _ _ H). reflexivity. }
  assert (Main : forall f, exists s1 s2 b, next 1 (cmpz f s) = Ok s1 /\ tos s1 0 = Some b /\ (b = 65535 \/ b = 0) /\
    jumpz f s target = Ok s2 /\
    pc s2 = (if b =? 65535 then target else u16 (pc s + 3)) /\
    same_regs s s2 /\ sp s2 = (sp s1 - 2) mod 65536 /\ sp s1 = sp s /\ (forall i, rd s2 i = rd s i)).
  { intros f. destruct (Hc f) as (s1 & E & T & S). exists s1. eexists _, _.
    split; [exact E|]. split; [exact T|]. split; [destruct (f (s16 a)); cbn; lia|].
    split; [apply Hj|]. cbn [pc with_pc sp with_sp]. unfold same_regs. repeat split; try lia.
    - destruct (f (s16 a)); reflexivity.
    - rewrite S. reflexivity. }
  cbn [In jump_pairs1] in Hin.
  repeat (destruct Hin as [Hin|Hin]; [injection Hin; intros <- <-; clear Hin|]); [..|destruct Hin].
  - exact (Main (fun a => a =? 0)).
  - exact (Main (fun a => negb (a =? 0))).
  - exact (Main (fun a => a <? 0)).
  - exact (Main (fun a => 0 <=? a)).
  - exact (Main (fun a => 0 <? a)).
  - exact (Main (fun a => a <=? 0)).
Qed.

Lemma jump_pairs2_correct c j s a b x y target :
  In (c, j) jump_pairs2 -> 0 <= sp s < 65536 -> tos s 1 = Some a -> tos s 0 = Some b ->
  exists s1 s2 r, exec_insn s (mkOp c x y) = Ok s1 /\ tos s1 0 = Some r /\ (r = 65535 \/ r = 0) /\
    exec_insn s (mkOp j x target) = Ok s2 /\
    pc s2 = (if r =? 65535 then target else u16 (pc s + 3)) /\
    same_regs s s2 /\ sp s2 = (sp s1 - 2) mod 65536 /\ sp s1 = sp s - 2 /\ (forall i, rd s2 i = rd s i).
Proof.
  intros Hin Hs Ha Hb. assert (Hs' : sp s < 65536) by lia.
  pose proof (tos_sp _ _ _ Ha) as H2. pose proof (tos_range _ _ _ Ha) as Ra. pose proof (tos_range _ _ _ Hb) as Rb.
  assert (Hj : forall f, jump2 f s target =
     Ok (with_pc (with_sp s (u16 (sp s - 4))) (if f a b then target else u16 (pc s + 3)))).
  { intros f. unfold jump2. rewrite (pop_eq _ _ Hb). cbn [bindo].
    rewrite (pop_eq _ a) by (rewrite tos_pop by lia; exact Ha). cbn [bindo sp with_sp].
    rewrite u16_sub_l. replace (sp s - 2 - 2) with (sp s - 4) by lia. reflexivity. }
  assert (Main : forall (o : st -> outcome) (t : bool) f,
    (exists s', o s = Ok s' /\ stack_effect s s' 2 [pbool t] /\ pc s' = pc s) ->
    t = f a b ->
    exists s1 s2 r, next 1 (o s) = Ok s1 /\ tos s1 0 = Some r /\ (r = 65535 \/ r = 0) /\
    jump2 f s target = Ok s2 /\
    pc s2 = (if r =? 65535 then target else u16 (pc s + 3)) /\
    same_regs s s2 /\ sp s2 = (sp s1 - 2) mod 65536 /\ sp s1 = sp s - 2 /\ (forall i, rd s2 i = rd s i)).
  { intros o t f (s1 & E & (_ & F1 & F2 & _) & P) Hfg. rewrite E. cbn [next].
    specialize (F2 O _ eq_refl). cbn [length] in F1.
    eexists _, _, (pbool t). split; [reflexivity|].
    split. { unfold tos. cbn [sp with_pc]. replace (sp s1 / 2 - 0) with (sp s / 2 - 2 + 1 + Z.of_nat 0) by lia. exact F2. }
    split; [destruct t; cbn; lia|].
    split; [apply Hj|]. rewrite Hfg. cbn [pc with_pc sp with_sp]. unfold same_regs. repeat split; try lia.
    - destruct (f a b); reflexivity.
    - rewrite F1. unfold u16. lia. }
  cbn [In jump_pairs2] in Hin.
  repeat (destruct Hin as [Hin|Hin]; [injection Hin; intros <- <-; clear Hin|]); [..|destruct Hin].
  - refine (Main (scmp (fun a b => b =? a)) _ (fun a b => (s16 a =? s16 b)) (scmp_effect _ s _ _ Hs' Ha Hb) _). lia.
  - refine (Main (scmp (fun a b => negb (b =? a))) _ (fun a b => negb (s16 a =? s16 b)) (scmp_effect _ s _ _ Hs' Ha Hb) _). lia.
  - refine (Main (scmp (fun a b => a <? b)) _ (fun a b => s16 a <? s16 b) (scmp_effect _ s _ _ Hs' Ha Hb) _). lia.
  - refine (Main (scmp (fun a b => b <=? a)) _ (fun a b => s16 b <=? s16 a) (scmp_effect _ s _ _ Hs' Ha Hb) _). lia.
  - refine (Main (scmp (fun a b => b <? a)) _ (fun a b => s16 b <? s16 a) (scmp_effect _ s _ _ Hs' Ha Hb) _). lia.
  - refine (Main (scmp (fun a b => a <=? b)) _ (fun a b => s16 a <=? s16 b) (scmp_effect _ s _ _ Hs' Ha Hb) _). lia.
  - refine (Main (ucmp (fun a b => a <? b)) _ (fun a b => a <? b) (ucmp_effect _ s _ _ Hs' Ha Hb) _). lia.
  - refine (Main (ucmp (fun a b => b <=? a)) _ (fun a b => b <=? a) (ucmp_effect _ s _ _ Hs' Ha Hb) _). lia.
  - refine (Main (ucmp (fun a b => b <? a)) _ (fun a b => b <? a) (ucmp_effect _ s _ _ Hs' Ha Hb) _). lia.
  - refine (Main (ucmp (fun a b => a <=? b)) _ (fun a b => a <=? b) (ucmp_effect _ s _ _ Hs' Ha Hb) _). lia.
Qed.
