(** Proofs about the long-integer operations. *)

From Coq Require Import ZArith Bool List Lia ZifyBool.
From Verif Require Import Words State Opcodes SetModel LongModel Machine WordLemmas StateLemmas VmSpec VmProofs MemProofs LongSpec.
Import ListNotations.
Open Scope Z_scope.
Ltac Zify.zify_post_hook ::= Z.div_mod_to_equations.

(** ** Composition of stack effects *)

Lemma effect_pop s k : 0 <= 2 * k <= sp s -> sp s < 65536 -> 
  stack_effect s (with_sp s (u16 (sp s - 2 * k))) k [].
Proof.
  intros H1 H2. unfold stack_effect, same_regs. cbn [cf csp fp lsp fch sp with_sp length].
  rewrite u16_small by lia. repeat split; try lia.
  intros [|k'] v; discriminate.
Qed.

Lemma effect_trans_pop s t u k n l : stack_effect s t k [] -> stack_effect t u n l -> stack_effect s u (k + n) l.
Proof.
  intros ((A1 & A2 & A3 & A4 & A5) & A6 & _ & A8) ((B1 & B2 & B3 & B4 & B5) & B6 & B7 & B8).
  cbn [length] in *. unfold stack_effect, same_regs. repeat split; try congruence; try lia.
  - intros j v H. rewrite <- (B7 j v H). f_equal. lia.
  - intros i Hi. rewrite B8 by lia. apply A8. lia.
Qed.

Lemma tos_with_sp s k j v : tos s (k + j) = Some v -> 0 <= j -> 0 <= k -> sp s < 65536 -> 0 <= sp s ->
  tos (with_sp s (u16 (sp s - 2 * k))) j = Some v.
Proof.
  intros H Hj Hk Hs H0. rewrite tos_drop; [exact H| |exact Hs].
  unfold tos in H. apply rd_some in H. destruct H as [H _]. apply in_word_iff in H. lia.
Qed.

Lemma upop32_eq s v : 0 <= sp s < 65536 -> long_at s 0 v ->
  upop32 s = Some (v, with_sp s (u16 (sp s - 2 * 2))) /\ 2 <= sp s.
Proof.
  intros Hs (lo & hi & H1 & H2 & ->). unfold upop32. rewrite (pop_eq _ _ H1). cbn [bindO].
  change (0 + 1) with 1 in H2.
  pose proof (tos_sp _ _ _ H2) as H.
  change (u16 (sp s - 2)) with (u16 (sp s - 2 * 1)).
  assert (E : tos (with_sp s (u16 (sp s - 2 * 1))) 0 = Some lo) by (apply tos_with_sp; [exact H2|lia..]).
  rewrite (pop_eq _ _ E). cbn [bindO]. split; [|lia]. unfold mk32. do 2 f_equal.
  unfold with_sp. cbn [mem cf sp csp fp pc lsp fch]. f_equal.
  unfold u16. lia.
Qed.

Lemma long_at_drop s k j v : long_at s (k + j) v -> 0 <= j -> 0 <= k -> 0 <= sp s < 65536 ->
  long_at (with_sp s (u16 (sp s - 2 * k))) j v.
Proof.
  intros (lo & hi & H1 & H2 & ->) Hj Hk Hs. exists lo, hi.
  split; [apply tos_with_sp; [exact H1|lia..]|]. split; [|reflexivity].
  apply tos_with_sp; [|lia..]. rewrite <- H2. f_equal. lia.
Qed.

Lemma long_at_range s k v : long_at s k v -> 0 <= v < 4294967296.
Proof.
  intros (lo & hi & H1 & H2 & ->). pose proof (tos_range _ _ _ H1). pose proof (tos_range _ _ _ H2). lia.
Qed.

Lemma ugettos32_eq s k v : long_at s k v -> ugettos32 s k = Some v.
Proof. intros (lo & hi & H1 & H2 & ->). unfold ugettos32. rewrite H1. cbn [bindO]. rewrite H2. reflexivity. Qed.

Lemma lo_hi v : 0 <= v < 4294967296 -> v = lo16 v + 65536 * hi16 v.
Proof. unfold lo16, hi16, u16. lia. Qed.

Lemma uputtos32_effect s a v : long_at s 0 a ->
  exists s', uputtos32 s v 0 = Some s' /\ stack_effect s s' 2 [lo16 v; hi16 v] /\ pc s' = pc s.
Proof.
  intros (lo & hi & H1 & H2 & _). change (0 + 1) with 1 in H2.
  destruct (tos_some _ _ _ H1) as [I1 _]. destruct (tos_some _ _ _ H2) as [I2 _].
  unfold uputtos32, puttos. rewrite (wr_in _ _ _ I1). cbn [bindO sp with_mem].
  change (0 + 1) with 1. rewrite wr_in by exact I2. eexists; split; [reflexivity|]. split; [|reflexivity].
  unfold stack_effect, same_regs. cbn [cf csp fp lsp fch sp with_mem mem length nth_error].
  repeat split; try lia.
  - intros [|[|[|k]]] v'; cbn [nth_error]; try discriminate; intros [= <-].
    + replace (sp s / 2 - 2 + 1 + Z.of_nat 0) with (sp s / 2 - 1) by lia.
      unfold rd. change (in_word (with_mem _ _) (sp s / 2 - 1)) with (in_word s (sp s / 2 - 1)).
      rewrite I2. cbn [mem with_mem]. rewrite upd_same, u16_u16. unfold lo16. rewrite u16_u16. reflexivity.
    + replace (sp s / 2 - 2 + 1 + Z.of_nat 1) with (sp s / 2 - 0) by lia.
      unfold rd. change (in_word (with_mem _ _) (sp s / 2 - 0)) with (in_word s (sp s / 2 - 0)).
      rewrite I1. cbn [mem with_mem]. rewrite upd_other by lia. rewrite upd_same, u16_u16. unfold hi16.
      rewrite u16_u16. reflexivity.
  - intros i Hi. unfold rd. change (in_word (with_mem _ _) i) with (in_word s i). cbn [mem with_mem].
    rewrite !upd_other by lia. reflexivity.
Qed.

Lemma long_unary_effect f s a r : long_at s 0 a -> f a = Some r ->
  exists s', long_unary f s = Ok s' /\ stack_effect s s' 2 [lo16 r; hi16 r] /\ pc s' = pc s.
Proof.
  intros H Hf. unfold long_unary. rewrite (ugettos32_eq _ _ _ H). cbn [bindo]. rewrite Hf. cbn [bindo].
  destruct (uputtos32_effect s a r H) as (s' & E & F & G). rewrite E. exists s'. auto.
Qed.

Lemma long_binary_effect f s a b r : 0 <= sp s < 65536 -> long_at s 0 b -> long_at s 2 a -> f a b = Some r ->
  exists s', long_binary f s = Ok s' /\ stack_effect s s' 4 [lo16 r; hi16 r] /\ pc s' = pc s.
Proof.
  intros Hs Hb Ha Hf. unfold long_binary. destruct (upop32_eq s b Hs Hb) as [-> Hsp]. cbn [bindo].
  assert (Ha' : long_at (with_sp s (u16 (sp s - 2 * 2))) 0 a) by (apply long_at_drop; [exact Ha|lia..]).
  rewrite (ugettos32_eq _ _ _ Ha'). cbn [bindo]. rewrite Hf. cbn [bindo].
  destruct (uputtos32_effect _ a r Ha') as (s' & E & F & G). rewrite E. exists s'.
  split; [reflexivity|]. split; [|exact G]. change 4 with (2 + 2).
  eapply effect_trans_pop; [|exact F]. apply effect_pop; [|lia].
  destruct Ha as (lo & hi & H1 & _). pose proof (tos_sp _ _ _ H1). lia.
Qed.

Lemma long_shift_effect f s a n r : 0 <= sp s < 65536 -> tos s 0 = Some n -> long_at s 1 a -> f a n = Some r ->
  exists s', long_shift f s = Ok s' /\ stack_effect s s' 3 [lo16 r; hi16 r] /\ pc s' = pc s.
Proof.
  intros Hs Hb Ha Hf. unfold long_shift. rewrite (pop_eq _ _ Hb). cbn [bindo].
  change (u16 (sp s - 2)) with (u16 (sp s - 2 * 1)).
  assert (Ha' : long_at (with_sp s (u16 (sp s - 2 * 1))) 0 a) by (apply long_at_drop; [exact Ha|lia..]).
  rewrite (ugettos32_eq _ _ _ Ha'). cbn [bindo]. rewrite Hf. cbn [bindo].
  destruct (uputtos32_effect _ a r Ha') as (s' & E & F & G). rewrite E. exists s'.
  split; [reflexivity|]. split; [|exact G]. change 3 with (1 + 2).
  eapply effect_trans_pop; [|exact F]. apply effect_pop; [|lia].
  destruct Ha as (lo & hi & H1 & _). pose proof (tos_sp _ _ _ H1). lia.
Qed.

Lemma push_eff s v : room s 1 -> 0 <= v < 65536 ->
  exists s', push s v = Some s' /\ stack_effect s s' 0 [v] /\ pc s' = pc s.
Proof.
  intros R Hv. destruct (push_effect s v R Hv) as (s' & E & F & G).
  destruct (push s v) as [t|]; [|discriminate]. injection E as ->. eauto.
Qed.

Lemma room_drop s k n : room s (n - k) -> 0 <= 2 * k <= sp s -> sp s < 65536 ->
  room (with_sp s (u16 (sp s - 2 * k))) n.
Proof.
  unfold room. intros (A & B & C & D) H Hs. cbn [sp cf with_sp]. rewrite u16_small by lia. lia.
Qed.

Lemma long_cmpz_effect f s a : room s 0 -> sp s < 65536 -> long_at s 0 a ->
  exists s', long_cmpz f s = Ok s' /\ stack_effect s s' 2 [pbool (f (s32 a))] /\ pc s' = pc s.
Proof.
  intros R Hs0 Ha. assert (Hs : 0 <= sp s < 65536) by (unfold room in R; lia).
  assert (H4 : 4 <= sp s \/ sp s < 4) by lia.
  unfold long_cmpz. destruct (upop32_eq s a Hs Ha) as [E0 Hsp]. rewrite E0. cbn [bindo].
  destruct H4 as [H4|H4].
  - destruct (push_eff (with_sp s (u16 (sp s - 2 * 2))) (pbool (f (s32 a)))) as (s' & E & F & G).
    + apply room_drop; [|lia..]. unfold room in *. lia.
    + apply pbool_range.
    + rewrite E. exists s'. split; [reflexivity|]. split; [|exact G].
      change 2 with (2 + 0). eapply effect_trans_pop; [|exact F]. apply effect_pop; lia.
  - (* the long value lies at the very bottom of the memory *)
    unfold push. cbn [sp with_sp].
    assert (E2 : u16 (u16 (sp s - 2 * 2) + 2) = sp s - 2) by (unfold u16; lia). rewrite E2.
    destruct Ha as (lo & hi & H1 & H2 & ->). change (0 + 1) with 1 in H2.
    destruct (tos_some _ _ _ H2) as [I2 _].
    rewrite wr_in by (replace ((sp s - 2) / 2) with (sp s / 2 - 1) by lia; exact I2).
    cbn [ret]. eexists; split; [reflexivity|]. split; [|reflexivity].
    set (w := pbool _). assert (Hw : 0 <= w < 65536) by apply pbool_range.
    unfold stack_effect, same_regs. cbn [cf csp fp lsp fch sp with_mem with_sp mem length nth_error].
    repeat split; try lia.
    + intros [|[|k]] v'; cbn [nth_error]; try discriminate; intros [= <-].
      replace (sp s / 2 - 2 + 1 + Z.of_nat 0) with (sp s / 2 - 1) by lia.
      unfold rd. change (in_word (with_mem _ _) (sp s / 2 - 1)) with (in_word s (sp s / 2 - 1)).
      rewrite I2. cbn [mem with_mem]. replace ((sp s - 2) / 2) with (sp s / 2 - 1) by lia.
      rewrite upd_same, u16_u16, u16_small by lia. reflexivity.
    + intros i Hi. unfold rd. change (in_word (with_mem _ _) i) with (in_word s i). cbn [mem with_mem].
      rewrite upd_other by lia. reflexivity.
Qed.

Lemma long_cmp_pop s a b : 0 <= sp s < 65536 -> long_at s 0 b -> long_at s 2 a ->
  exists s1, upop32 s = Some (b, s1) /\ upop32 s1 = Some (a, with_sp s (u16 (sp s - 2 * 4))) /\ 6 <= sp s.
Proof.
  intros Hs Hb Ha. destruct (upop32_eq s b Hs Hb) as [E Hsp]. eexists; split; [exact E|].
  assert (Ha' : long_at (with_sp s (u16 (sp s - 2 * 2))) 0 a) by (apply long_at_drop; [exact Ha|lia..]).
  destruct (upop32_eq (with_sp s (u16 (sp s - 2 * 2))) a (u16_range _) Ha') as [E2 H2]. rewrite E2.
  destruct Ha as (lo & hi & H1 & H3 & _). pose proof (tos_sp _ _ _ H1). pose proof (tos_sp _ _ _ H3).
  split; [|lia]. do 2 f_equal. unfold with_sp. cbn [mem cf sp csp fp pc lsp fch]. f_equal.
  unfold u16. lia.
Qed.

Lemma long_cmp_effect w s : room s 0 -> sp s < 65536 -> 8 <= sp s ->
  0 <= w < 65536 ->
  exists s', ret (push (with_sp s (u16 (sp s - 2 * 4))) w) = Ok s' /\ stack_effect s s' 4 [w] /\ pc s' = pc s.
Proof.
  intros R Hs0 H8 Hw.
  destruct (push_eff (with_sp s (u16 (sp s - 2 * 4))) w) as (s' & E & F & G).
  - apply room_drop; [|lia..]. unfold room in *. lia.
  - exact Hw.
  - rewrite E. exists s'. split; [reflexivity|]. split; [|exact G].
    change 4 with (4 + 0). eapply effect_trans_pop; [|exact F]. apply effect_pop; lia.
Qed.

Lemma long_scmp_effect f s a b : room s 0 -> sp s < 65536 -> 8 <= sp s -> long_at s 0 b -> long_at s 2 a ->
  exists s', long_scmp f s = Ok s' /\ stack_effect s s' 4 [pbool (f (s32 b) (s32 a))] /\ pc s' = pc s.
Proof.
  intros R Hs H8 Hb Ha. destruct (long_cmp_pop s a b ltac:(lia) Hb Ha) as (s1 & E1 & E2 & _).
  unfold long_scmp. rewrite E1. cbn [bindo]. rewrite E2. cbn [bindo].
  apply long_cmp_effect; try assumption. apply pbool_range.
Qed.
Lemma long_ucmp_effect f s a b : room s 0 -> sp s < 65536 -> 8 <= sp s -> long_at s 0 b -> long_at s 2 a ->
  exists s', long_ucmp f s = Ok s' /\ stack_effect s s' 4 [pbool (f b a)] /\ pc s' = pc s.
Proof.
  intros R Hs H8 Hb Ha. destruct (long_cmp_pop s a b ltac:(lia) Hb Ha) as (s1 & E1 & E2 & _).
  unfold long_ucmp. rewrite E1. cbn [bindo]. rewrite E2. cbn [bindo].
  apply long_cmp_effect; try assumption. apply pbool_range.
Qed.

(** ** Numbers *)

Lemma signed32_s32 w : signed32 w (s32 w).
Proof.
  split; [pose proof (s32_range w); lia|]. unfold s32, u32.
  destruct (w mod 4294967296 <? 2147483648) eqn:E.
  - exists (w / 4294967296). lia.
  - exists (w / 4294967296 + 1). lia.
Qed.
Lemma word32_u32 z : word32 (u32 z) z.
Proof. split; [pose proof (u32_range z); lia|]. exists (- (z / 4294967296)). unfold u32. lia. Qed.
Lemma word32_iff r z : word32 r z <-> r = u32 z.
Proof. split; [intros [H [k Hk]]; unfold u32; lia|intros ->; apply word32_u32]. Qed.
Lemma u32_congr x y k : x = y + k * 4294967296 -> u32 x = u32 y.
Proof. intros ->; unfold u32; apply Z.mod_add; lia. Qed.
Lemma s32_spec w : exists k, w = s32 w + 4294967296 * k.
Proof. destruct (signed32_s32 w) as [_ H]. exact H. Qed.

Lemma lsgn1_intro (R : Z -> Z -> Prop) a r : R (s32 a) r -> lsgn1 R a r.
Proof. intros H; exists (s32 a); split; [apply signed32_s32|exact H]. Qed.
Lemma lsgn2_intro (R : Z -> Z -> Z -> Prop) a b r : R (s32 a) (s32 b) r -> lsgn2 R a b r.
Proof. intros H; exists (s32 a), (s32 b); repeat split; try apply signed32_s32; exact H. Qed.
Lemma ldom1_elim P a : ldom1 P a -> P (s32 a).
Proof. intros H. apply H, signed32_s32. Qed.
Lemma ldom2_elim P a b : ldom2 P a b -> P (s32 a) (s32 b).
Proof. intros H. apply H; apply signed32_s32. Qed.

Lemma sint_ok x : fits32 x -> sint x = Some (u32 x).
Proof.
  unfold fits32, sint, int_ok. intros H.
  replace ((-2147483648 <=? x) && (x <=? 2147483647)) with true by lia. reflexivity.
Qed.

Lemma quot_fits x y : fits32 x -> fits32 y -> y <> 0 -> ~ (x = -2147483648 /\ y = -1) -> fits32 (Z.quot x y).
Proof.
  unfold fits32. intros Hx Hy Hn H.
  pose proof (truncdiv_quot x y Hn) as (A & B & C).
  assert (Z.abs (Z.quot x y) <= Z.abs x) by (rewrite <- Z.quot_abs by lia; apply Z.quot_le_upper_bound; nia).
  destruct (Z.eq_dec (Z.abs y) 1) as [E|E]; [nia|].
  assert (2 * Z.abs (Z.quot x y) <= Z.abs x).
  { rewrite <- Z.quot_abs by lia. pose proof (Z.mul_quot_le (Z.abs x) (Z.abs y) ltac:(lia) ltac:(lia)).
    pose proof (Z.quot_pos (Z.abs x) (Z.abs y) ltac:(lia) ltac:(lia)). nia. }
  lia.
Qed.

Lemma bitwise32_intro f (g : Z -> Z -> Z) a b :
  0 <= g a b < 4294967296 -> (forall i, Z.testbit (g a b) i = f (Z.testbit a i) (Z.testbit b i)) ->
  bitwise32 f a b (g a b).
Proof. intros H1 H2. split; [lia|]. intros; apply H2. Qed.

Lemma land32 x y : 0 <= x < 4294967296 -> 0 <= y < 4294967296 -> 0 <= Z.land x y < 4294967296.
Proof. rewrite pow32; apply land_range; lia. Qed.
Lemma lor32 x y : 0 <= x < 4294967296 -> 0 <= y < 4294967296 -> 0 <= Z.lor x y < 4294967296.
Proof. rewrite pow32; apply lor_range; lia. Qed.
Lemma lxor32 x y : 0 <= x < 4294967296 -> 0 <= y < 4294967296 -> 0 <= Z.lxor x y < 4294967296.
Proof. rewrite pow32; apply lxor_range; lia. Qed.

(** ** The operations *)

(** [s'] has the long result [r] in place of [n] words. *)
Definition long_result (s s' : st) (n r : Z) : Prop :=
  exists lo hi, stack_effect s s' n [lo; hi] /\ r = lo + 65536 * hi.

Lemma exec_long s c x : exec_insn s (mkOp oLONGOP8 c x) = long_operation8 (with_pc s (u16 (pc s + 2))) c.
Proof. reflexivity. Qed.

Definition bump (s : st) : st := with_pc s (u16 (pc s + 2)).

Lemma finish_long (P : Z -> Prop) o s n r : 
  (exists s', o = Ok s' /\ stack_effect (bump s) s' n [lo16 r; hi16 r] /\ pc s' = pc (bump s)) ->
  0 <= r < 4294967296 -> P r ->
  exists s' r, o = Ok s' /\ P r /\ long_result s s' n r /\ pc s' = u16 (pc s + 2).
Proof.
  intros (s' & E & F & G) Hr HP.
  exists s', r. split; [exact E|]. split; [exact HP|].
  split; [|exact G]. exists (lo16 r), (hi16 r).
  split; [exact F|apply lo_hi, Hr].
Qed.

Lemma finish_word (P : Z -> Prop) o s n r : 
  (exists s', o = Ok s' /\ stack_effect (bump s) s' n [r] /\ pc s' = pc (bump s)) -> P r ->
  exists s' r, o = Ok s' /\ P r /\ stack_effect s s' n [r] /\ pc s' = u16 (pc s + 2).
Proof.
  intros (s' & E & F & G) HP.
  exists s', r. split; [exact E|]. split; [exact HP|]. split; [exact F|exact G].
Qed.

Lemma long_unary_correct c D R s a x :
  In (c, D, R) long_unary_ops -> long_at s 0 a -> D a ->
  exists s' r, exec_insn s (mkOp oLONGOP8 c x) = Ok s' /\ R a r /\ long_result s s' 2 r /\
    pc s' = u16 (pc s + 2).
Proof.
  intros Hin Ha HD. pose proof (long_at_range _ _ _ Ha) as Hr. rewrite exec_long; fold (bump s).
  cbn [In long_unary_ops] in Hin.
  repeat (destruct Hin as [Hin|Hin]; [injection Hin; intros <- <- <-; clear Hin|]); [..|destruct Hin].
  - apply (finish_long _ _ _ _ (u32 (- s32 a))).
    + apply (long_unary_effect (fun a => sint (- s32 a)) (bump s) a); [exact Ha|]. apply sint_ok, (ldom1_elim _ _ HD).
    + apply u32_range.
    + apply lsgn1_intro, word32_u32.
  - apply ldom1_elim in HD.
    change (long_operation8 (bump s) nDABS) with (v <- ugettos32 (bump s) 0 ;;
                  if s32 v <? 0
                  then r <- sint (- s32 v) ;; ret (uputtos32 (bump s) r 0)
                  else Ok (bump s)).
    rewrite (ugettos32_eq (bump s) 0 a Ha). cbn [bindo]. destruct (s32 a <? 0) eqn:E.
    + apply (finish_long _ _ _ _ (u32 (- s32 a))).
      * rewrite sint_ok by (unfold fits32 in *; lia). cbn [bindo].
        destruct (uputtos32_effect (bump s) a (u32 (- s32 a)) Ha) as (s' & E1 & F & G). rewrite E1. exists s'. auto.
      * apply u32_range.
      * apply lsgn1_intro. replace (Z.abs (s32 a)) with (- s32 a) by lia. apply word32_u32.
    + exists (bump s), a. split; [reflexivity|].
      split; [apply lsgn1_intro; rewrite Z.abs_eq by lia; apply word32_iff; rewrite u32_s32; symmetry; apply u32_small; lia|].
      split; [|reflexivity]. destruct Ha as (lo & hi & H1 & H2 & ->). exists lo, hi. split; [|reflexivity].
      apply (effect_with_pc s s). unfold stack_effect, same_regs; cbn [length]. repeat split; try lia.
      intros [|[|[|k]]] v; cbn [nth_error]; try discriminate; intros [= <-].
      * rewrite <- H2. unfold tos. f_equal. lia.
      * rewrite <- H1. unfold tos. f_equal. lia.
  - apply (finish_long _ _ _ _ (u32 (a + 1))).
    + apply (long_unary_effect (fun a => Some (u32 (a + 1))) (bump s) a); [exact Ha|reflexivity].
    + apply u32_range.
    + apply lsgn1_intro. destruct (s32_spec a) as [k Hk]. apply word32_iff. apply (u32_congr _ _ k). lia.
  - apply (finish_long _ _ _ _ (u32 (a - 1))).
    + apply (long_unary_effect (fun a => Some (u32 (a - 1))) (bump s) a); [exact Ha|reflexivity].
    + apply u32_range.
    + apply lsgn1_intro. destruct (s32_spec a) as [k Hk]. apply word32_iff. apply (u32_congr _ _ k). lia.
  - apply (finish_long _ _ _ _ (u32 (Z.lnot a))).
    + apply (long_unary_effect (fun a => Some (u32 (Z.lnot a))) (bump s) a); [exact Ha|reflexivity].
    + apply u32_range.
    + split; [pose proof (u32_range (Z.lnot a)); lia|]. intros i Hi. rewrite testbit_u32 by lia.
      apply Z.lnot_spec; lia.
Qed.

Lemma div_range a b : 0 <= a < 4294967296 -> 0 < b -> 0 <= a / b < 4294967296.
Proof. intros Ha Hb. split; [apply Z.div_pos; lia|]. apply Z.div_lt_upper_bound; nia. Qed.

Lemma long_binary_correct c D R s a b x :
  In (c, D, R) long_binary_ops -> 0 <= sp s < 65536 -> long_at s 0 b -> long_at s 2 a -> D a b ->
  exists s' r, exec_insn s (mkOp oLONGOP8 c x) = Ok s' /\ R a b r /\ long_result s s' 4 r /\
    pc s' = u16 (pc s + 2).
Proof.
  intros Hin Hs Hb Ha HD.
  pose proof (long_at_range _ _ _ Ha) as Hra. pose proof (long_at_range _ _ _ Hb) as Hrb. rewrite exec_long; fold (bump s).
  pose proof (s32_range a) as Sa. pose proof (s32_range b) as Sb.
  cbn [In long_binary_ops] in Hin.
  repeat (destruct Hin as [Hin|Hin]; [injection Hin; intros <- <- <-; clear Hin|]); [..|destruct Hin].
  - apply (finish_long _ _ _ _ (u32 (s32 a + s32 b))).
    + apply (long_binary_effect (fun a b => sint (s32 a + s32 b)) (bump s) a b); [exact Hs|assumption..|].
      apply sint_ok, (ldom2_elim _ _ _ HD).
    + apply u32_range.
    + apply lsgn2_intro, word32_u32.
  - apply (finish_long _ _ _ _ (u32 (s32 a - s32 b))).
    + apply (long_binary_effect (fun a b => sint (s32 a - s32 b)) (bump s) a b); [exact Hs|assumption..|].
      apply sint_ok, (ldom2_elim _ _ _ HD).
    + apply u32_range.
    + apply lsgn2_intro, word32_u32.
  - apply (finish_long _ _ _ _ (u32 (s32 a * s32 b))).
    + apply (long_binary_effect (fun a b => sint (s32 a * s32 b)) (bump s) a b); [exact Hs|assumption..|].
      apply sint_ok, (ldom2_elim _ _ _ HD).
    + apply u32_range.
    + apply lsgn2_intro, word32_u32.
  - apply (finish_long _ _ _ _ (u32 (a * b))).
    + apply (long_binary_effect (fun a b => Some (u32 (a * b))) (bump s) a b); [exact Hs|assumption..|reflexivity].
    + apply u32_range.
    + apply word32_u32.
  - apply ldom2_elim in HD. destruct HD as [HD1 HD2].
    apply (finish_long _ _ _ _ (u32 (Z.quot (s32 a) (s32 b)))).
    + apply (long_binary_effect (fun a b => sdiv32 (s32 a) (s32 b)) (bump s) a b); [exact Hs|assumption..|].
      unfold sdiv32. replace (s32 b =? 0) with false by lia. apply sint_ok, quot_fits; unfold fits32; lia.
    + apply u32_range.
    + apply lsgn2_intro. eexists _, _. split; [apply truncdiv_quot; lia|apply word32_u32].
  - apply ldom2_elim in HD. destruct HD as [HD1 HD2].
    apply (finish_long _ _ _ _ (u32 (Z.rem (s32 a) (s32 b)))).
    + apply (long_binary_effect (fun a b => smod32 (s32 a) (s32 b)) (bump s) a b); [exact Hs|assumption..|].
      unfold smod32. replace (s32 b =? 0) with false by lia.
      pose proof (quot_fits (s32 a) (s32 b)) as Q. unfold fits32 in Q.
      unfold int_ok. replace ((-2147483648 <=? _) && _) with true by lia. reflexivity.
    + apply u32_range.
    + apply lsgn2_intro. eexists _, _. split; [apply truncdiv_quot; lia|apply word32_u32].
  - apply (finish_long _ _ _ _ (a / b)).
    + apply (long_binary_effect (fun a b => if b =? 0 then None else Some (a / b)) (bump s) a b); [exact Hs|assumption..|].
      cbv beta. replace (b =? 0) with false by lia. reflexivity.
    + apply div_range; lia.
    + exists (a mod b). pose proof (Z.div_mod a b ltac:(lia)). pose proof (Z.mod_pos_bound a b ltac:(lia)). lia.
  - apply (finish_long _ _ _ _ (a mod b)).
    + apply (long_binary_effect (fun a b => if b =? 0 then None else Some (a mod b)) (bump s) a b); [exact Hs|assumption..|].
      cbv beta. replace (b =? 0) with false by lia. reflexivity.
    + pose proof (Z.mod_pos_bound a b ltac:(lia)). lia.
    + exists (a / b). pose proof (Z.div_mod a b ltac:(lia)). pose proof (Z.mod_pos_bound a b ltac:(lia)). lia.
  - apply (finish_long _ _ _ _ (Z.lor a b)).
    + apply (long_binary_effect (fun a b => Some (Z.lor a b)) (bump s) a b); [exact Hs|assumption..|reflexivity].
    + apply lor32; lia.
    + apply (bitwise32_intro orb Z.lor); [apply lor32; lia|intros; apply Z.lor_spec].
  - apply (finish_long _ _ _ _ (Z.land a b)).
    + apply (long_binary_effect (fun a b => Some (Z.land a b)) (bump s) a b); [exact Hs|assumption..|reflexivity].
    + apply land32; lia.
    + apply (bitwise32_intro andb Z.land); [apply land32; lia|intros; apply Z.land_spec].
  - apply (finish_long _ _ _ _ (Z.lxor a b)).
    + apply (long_binary_effect (fun a b => Some (Z.lxor a b)) (bump s) a b); [exact Hs|assumption..|reflexivity].
    + apply lxor32; lia.
    + apply (bitwise32_intro xorb Z.lxor); [apply lxor32; lia|intros; apply Z.lxor_spec].
Qed.

Lemma shift32_ok g a n : 0 <= n < 32 -> shift32 g a n = Some (u32 (g a n)).
Proof. intros H. unfold shift32. replace ((0 <=? n) && (n <? 32)) with true by lia. reflexivity. Qed.

Lemma long_shift_correct c R s a n x :
  In (c, R) long_shift_ops -> 0 <= sp s < 65536 -> tos s 0 = Some n -> n < 32 -> long_at s 1 a ->
  exists s' r, exec_insn s (mkOp oLONGOP8 c x) = Ok s' /\ R a n r /\ long_result s s' 3 r /\
    pc s' = u16 (pc s + 2).
Proof.
  intros Hin Hs Hn Hl Ha. pose proof (tos_range _ _ _ Hn) as Hrn.
  pose proof (long_at_range _ _ _ Ha) as Hra. rewrite exec_long; fold (bump s).
  assert (HP : 0 < 2 ^ n) by (apply Z.pow_pos_nonneg; lia).
  cbn [In long_shift_ops] in Hin.
  repeat (destruct Hin as [Hin|Hin]; [injection Hin; intros <- <-; clear Hin|]); [..|destruct Hin].
  - apply (finish_long _ _ _ _ (u32 (Z.shiftl (s32 a) n))).
    + apply (long_shift_effect (fun a n => shift32 Z.shiftl (s32 a) n) (bump s) a n); try assumption.
      apply shift32_ok. lia.
    + apply u32_range.
    + apply word32_iff. rewrite Z.shiftl_mul_pow2 by lia. destruct (s32_spec a) as [k Hk].
      apply (u32_congr _ _ (- k * 2 ^ n)). nia.
  - apply (finish_long _ _ _ _ (u32 (Z.shiftr a n))).
    + apply (long_shift_effect (fun a n => shift32 Z.shiftr a n) (bump s) a n); try assumption.
      apply shift32_ok. lia.
    + apply u32_range.
    + rewrite Z.shiftr_div_pow2 by lia. pose proof (div_range a (2 ^ n) ltac:(lia) HP).
      rewrite u32_small by lia. exists (a mod 2 ^ n).
      pose proof (Z.div_mod a (2 ^ n) ltac:(lia)). pose proof (Z.mod_pos_bound a (2 ^ n) ltac:(lia)). lia.
  - apply (finish_long _ _ _ _ (u32 (Z.shiftr (s32 a) n))).
    + apply (long_shift_effect (fun a n => shift32 Z.shiftr (s32 a) n) (bump s) a n); try assumption.
      apply shift32_ok. lia.
    + apply u32_range.
    + rewrite Z.shiftr_div_pow2 by lia. exists (s32 a), (s32 a / 2 ^ n), (s32 a mod 2 ^ n).
      split; [apply signed32_s32|]. split; [apply Z.div_mod; lia|].
      split; [apply Z.mod_pos_bound; lia|]. apply word32_u32.
Qed.

Lemma long_test_correct c R s a x :
  In (c, R) long_test_ops -> room s 0 -> sp s < 65536 -> long_at s 0 a ->
  exists s' r, exec_insn s (mkOp oLONGOP8 c x) = Ok s' /\ R a r /\ stack_effect s s' 2 [r] /\
    pc s' = u16 (pc s + 2).
Proof.
  intros Hin Hr Hs Ha. rewrite exec_long; fold (bump s). cbn [In long_test_ops] in Hin.
  repeat (destruct Hin as [Hin|Hin]; [injection Hin; intros <- <-; clear Hin|]); [..|destruct Hin].
  - apply (finish_word _ _ _ _ _ (long_cmpz_effect (fun a => a =? 0) (bump s) a Hr Hs Ha)).
    apply lsgn1_intro, truth_pbool; lia.
  - apply (finish_word _ _ _ _ _ (long_cmpz_effect (fun a => negb (a =? 0)) (bump s) a Hr Hs Ha)).
    apply lsgn1_intro, truth_pbool; lia.
  - apply (finish_word _ _ _ _ _ (long_cmpz_effect (fun a => a <? 0) (bump s) a Hr Hs Ha)).
    apply lsgn1_intro, truth_pbool; lia.
  - apply (finish_word _ _ _ _ _ (long_cmpz_effect (fun a => 0 <=? a) (bump s) a Hr Hs Ha)).
    apply lsgn1_intro, truth_pbool; lia.
  - apply (finish_word _ _ _ _ _ (long_cmpz_effect (fun a => 0 <? a) (bump s) a Hr Hs Ha)).
    apply lsgn1_intro, truth_pbool; lia.
  - apply (finish_word _ _ _ _ _ (long_cmpz_effect (fun a => a <=? 0) (bump s) a Hr Hs Ha)).
    apply lsgn1_intro, truth_pbool; lia.
Qed.

Lemma long_equ_correct c R s a b x :
  In (c, R) long_relation_ops -> In c symmetric_relations ->
  room s 0 -> 8 <= sp s < 65536 -> long_at s 0 b -> long_at s 2 a ->
  exists s' r, exec_insn s (mkOp oLONGOP8 c x) = Ok s' /\ R a b r /\ stack_effect s s' 4 [r] /\
    pc s' = u16 (pc s + 2).
Proof.
  intros Hin Hsym Hr Hs Hb Ha. rewrite exec_long; fold (bump s). cbn [In long_relation_ops] in Hin.
  repeat (destruct Hin as [Hin|Hin]; [injection Hin; intros <- <-; clear Hin|]);
    try (exfalso; cbn in Hsym; repeat (destruct Hsym as [Hsym|Hsym]; [discriminate Hsym|]); exact Hsym); [..|destruct Hin].
  - apply (finish_word _ _ _ _ _ (long_scmp_effect (fun p1 p2 => p1 =? p2) (bump s) a b Hr (proj2 Hs) (proj1 Hs) Hb Ha)).
    apply lsgn2_intro, truth_pbool; lia.
  - apply (finish_word _ _ _ _ _ (long_scmp_effect (fun p1 p2 => negb (p1 =? p2)) (bump s) a b Hr (proj2 Hs) (proj1 Hs) Hb Ha)).
    apply lsgn2_intro, truth_pbool; lia.
Qed.

(** What the ordering comparisons compute: the relation with the operands
    exchanged, and for DULT whether the first operand is not zero. *)
Lemma long_order_actual c R s a b x :
  In (c, R) long_relation_ops -> ~ In c symmetric_relations -> c <> nDULT ->
  room s 0 -> 8 <= sp s < 65536 -> long_at s 0 b -> long_at s 2 a ->
  exists s' r, exec_insn s (mkOp oLONGOP8 c x) = Ok s' /\ R b a r /\ stack_effect s s' 4 [r] /\
    pc s' = u16 (pc s + 2).
Proof.
  intros Hin Hsym Hu Hr Hs Hb Ha. rewrite exec_long; fold (bump s). cbn [In long_relation_ops] in Hin.
  repeat (destruct Hin as [Hin|Hin]; [injection Hin; intros <- <-; clear Hin|]);
    try (exfalso; apply Hsym; cbn; tauto); try (exfalso; apply Hu; reflexivity).
  - apply (finish_word _ _ _ _ _ (long_scmp_effect (fun p1 p2 => p1 <? p2) (bump s) a b Hr (proj2 Hs) (proj1 Hs) Hb Ha)).
    apply lsgn2_intro, truth_pbool; lia.
  - apply (finish_word _ _ _ _ _ (long_scmp_effect (fun p1 p2 => p2 <=? p1) (bump s) a b Hr (proj2 Hs) (proj1 Hs) Hb Ha)).
    apply lsgn2_intro, truth_pbool; lia.
  - apply (finish_word _ _ _ _ _ (long_scmp_effect (fun p1 p2 => p2 <? p1) (bump s) a b Hr (proj2 Hs) (proj1 Hs) Hb Ha)).
    apply lsgn2_intro, truth_pbool; lia.
  - apply (finish_word _ _ _ _ _ (long_scmp_effect (fun p1 p2 => p1 <=? p2) (bump s) a b Hr (proj2 Hs) (proj1 Hs) Hb Ha)).
    apply lsgn2_intro, truth_pbool; lia.
  - apply (finish_word _ _ _ _ _ (long_ucmp_effect (fun p1 p2 => p2 <=? p1) (bump s) a b Hr (proj2 Hs) (proj1 Hs) Hb Ha)).
    apply truth_pbool; lia.
  - apply (finish_word _ _ _ _ _ (long_ucmp_effect (fun p1 p2 => p2 <? p1) (bump s) a b Hr (proj2 Hs) (proj1 Hs) Hb Ha)).
    apply truth_pbool; lia.
  - apply (finish_word _ _ _ _ _ (long_ucmp_effect (fun p1 p2 => p1 <=? p2) (bump s) a b Hr (proj2 Hs) (proj1 Hs) Hb Ha)).
    apply truth_pbool; lia.
Qed.

Lemma long_ult_actual s a b x : room s 0 -> 8 <= sp s < 65536 -> long_at s 0 b -> long_at s 2 a ->
  exists s' r, exec_insn s (mkOp oLONGOP8 nDULT x) = Ok s' /\ truth r (0 < a) /\ stack_effect s s' 4 [r] /\
    pc s' = u16 (pc s + 2).
Proof.
  intros Hr Hs Hb Ha. rewrite exec_long; fold (bump s).
  apply (finish_word (fun r => truth r (0 < a)) _ _ _ _ (long_ucmp_effect (fun p1 p2 => 0 <? p2) (bump s) a b Hr (proj2 Hs) (proj1 Hs) Hb Ha)).
  apply truth_pbool; lia.
Qed.

(** ** Conversions and duplication *)

Lemma effect_push2 s t u v w : stack_effect s t 0 [v] -> stack_effect t u 0 [w] -> stack_effect s u 0 [v; w].
Proof.
  intros ((A1 & A2 & A3 & A4 & A5) & A6 & A7 & A8) ((B1 & B2 & B3 & B4 & B5) & B6 & B7 & B8).
  cbn [length] in *. unfold stack_effect, same_regs. repeat split; try congruence; try (cbn [length]; lia).
  - intros [|[|[|k]]] x; cbn [nth_error]; try discriminate; intros [= <-].
    + rewrite B8 by lia. specialize (A7 O v eq_refl). rewrite <- A7. f_equal.
    + specialize (B7 O w eq_refl). rewrite <- B7. f_equal. lia.
  - intros i Hi. cbn [length] in Hi. rewrite B8 by lia. apply A8. lia.
Qed.

Lemma upush32_effect s v : room s 2 ->
  exists s', upush32 s v = Some s' /\ stack_effect s s' 0 [lo16 v; hi16 v] /\ pc s' = pc s.
Proof.
  intros R. unfold upush32.
  destruct (push_eff s (lo16 v)) as (t & E & F & G); [unfold room in *; lia|apply u16_range|].
  rewrite E. cbn [bindO].
  destruct (push_eff t (hi16 v)) as (u & E' & F' & G').
  - destruct F as ((A1 & _) & A6 & _). cbn [length] in A6. unfold room in *. rewrite A1. lia.
  - apply u16_range.
  - exists u. split; [exact E'|]. split; [eapply effect_push2; eassumption|congruence].
Qed.

Lemma long_dup s a x : room s 2 -> long_at s 0 a ->
  exists s' lo hi, exec_insn s (mkOp oLONGOP8 nDDUP x) = Ok s' /\ a = lo + 65536 * hi /\
    stack_effect s s' 0 [lo; hi] /\ pc s' = u16 (pc s + 2).
Proof.
  intros R Ha. rewrite exec_long; fold (bump s).
  change (long_operation8 (bump s) nDDUP) with (v <- ugettos32 (bump s) 0 ;; ret (upush32 (bump s) v)).
  rewrite (ugettos32_eq (bump s) 0 a Ha). cbn [bindo].
  destruct (upush32_effect (bump s) a R) as (s' & E & F & G). rewrite E. cbn [ret].
  exists s', (lo16 a), (hi16 a). split; [reflexivity|].
  split; [apply lo_hi, (long_at_range _ _ _ Ha)|]. split; [exact F|exact G].
Qed.

Lemma convert_up c s w x : In c [nCNVD; nUCNVD] -> room s 1 -> 2 <= sp s -> tos s 0 = Some w ->
  exists s' r, exec_insn s (mkOp oLONGOP8 c x) = Ok s' /\
    (if c =? nCNVD then sgn1 (fun z r => word32 r z) w r else r = w) /\
    long_result s s' 1 r /\ pc s' = u16 (pc s + 2).
Proof.
  intros Hin R H2 Hw. pose proof (tos_range _ _ _ Hw) as Hr. rewrite exec_long; fold (bump s).
  assert (Hs : sp s < 65536) by (unfold room in R; lia).
  assert (X : forall v, exists s', ret (upush32 (with_sp (bump s) (u16 (sp (bump s) - 2))) v) = Ok s' /\
             stack_effect (bump s) s' 1 [lo16 v; hi16 v] /\ pc s' = pc (bump s)).
  { intros v. change (u16 (sp (bump s) - 2)) with (u16 (sp (bump s) - 2 * 1)).
    destruct (upush32_effect (with_sp (bump s) (u16 (sp (bump s) - 2 * 1))) v) as (s' & E & F & G).
    - apply room_drop; cbn [sp bump with_pc]; [|lia..]. unfold room in *. cbn [sp cf bump with_pc]. lia.
    - rewrite E. exists s'. split; [reflexivity|]. split; [|exact G].
      change 1 with (1 + 0) at 1. eapply effect_trans_pop; [|exact F]. apply effect_pop; cbn [sp bump with_pc]; lia. }
  destruct Hin as [<-|[<-|[]]].
  - change (long_operation8 (bump s) nCNVD) with ('(w, s) <- pop (bump s) ;; ret (upush32 s (u32 (s16 w)))).
    rewrite (pop_eq (bump s) w Hw). cbn [bindo].
    apply (finish_long (fun r => if nCNVD =? nCNVD then sgn1 (fun z r => word32 r z) w r else r = w) _ _ _ _ (X _)).
    + apply u32_range.
    + change (nCNVD =? nCNVD) with true. cbv iota. apply sgn1_intro, word32_u32.
  - change (long_operation8 (bump s) nUCNVD) with ('(w, s) <- pop (bump s) ;; ret (upush32 s w)).
    rewrite (pop_eq (bump s) w Hw). cbn [bindo].
    apply (finish_long (fun r => if nUCNVD =? nCNVD then sgn1 (fun z r => word32 r z) w r else r = w) _ _ _ _ (X _)).
    + lia.
    + reflexivity.
Qed.

Lemma convert_down s a x : room s 0 -> 4 <= sp s < 65536 -> long_at s 0 a ->
  exists s' r, exec_insn s (mkOp oLONGOP8 nDCNV x) = Ok s' /\ word16 r a /\
    stack_effect s s' 2 [r] /\ pc s' = u16 (pc s + 2).
Proof.
  intros R Hs Ha. assert (Hs0 : 0 <= sp s < 65536) by lia. rewrite exec_long; fold (bump s).
  change (long_operation8 (bump s) nDCNV) with ('(v, s) <- upop32 (bump s) ;; ret (push s (u16 v))).
  destruct (upop32_eq (bump s) a (conj (proj1 Hs0) (proj2 Hs)) Ha) as [E0 _]. rewrite E0. cbn [bindo].
  apply (finish_word (fun r => word16 r a) _ _ _ (u16 a)); [|apply word16_u16].
  destruct (push_eff (with_sp (bump s) (u16 (sp (bump s) - 2 * 2))) (u16 a)) as (s' & E & F & G).
  - apply room_drop; cbn [sp bump with_pc]; [|lia..]. unfold room in *. cbn [sp cf bump with_pc]. lia.
  - apply u16_range.
  - rewrite E. exists s'. split; [reflexivity|]. split; [|exact G].
    change 2 with (2 + 0). eapply effect_trans_pop; [|exact F]. apply effect_pop; cbn [sp bump with_pc]; lia.
Qed.

(** Division by zero and overflow of the signed operations *)
Lemma long_binary_none f s a b : 0 <= sp s < 65536 -> long_at s 0 b -> long_at s 2 a -> f a b = None ->
  long_binary f s = UB.
Proof.
  intros Hs Hb Ha Hf. unfold long_binary. destruct (upop32_eq s b Hs Hb) as [-> Hsp]. cbn [bindo].
  assert (Ha' : long_at (with_sp s (u16 (sp s - 2 * 2))) 0 a) by (apply long_at_drop; [exact Ha|lia..]).
  rewrite (ugettos32_eq _ _ _ Ha'). cbn [bindo]. rewrite Hf. reflexivity.
Qed.

Lemma long_overflow s a b z x : 0 <= sp s < 65536 -> long_at s 0 b -> long_at s 2 a ->
  lsgn2 (fun x y r => r = x + y) a b z -> ~ fits32 z ->
  exec_insn s (mkOp oLONGOP8 nDADD x) = UB.
Proof.
  intros Hs Hb Ha (u & v & [Hu [k Hk]] & [Hv [l Hl]] & ->) HN. rewrite exec_long; fold (bump s).
  change (long_operation8 (bump s) nDADD) with (long_binary (fun a b => sint (s32 a + s32 b)) (bump s)).
  rewrite (long_binary_none _ (bump s) a b Hs Hb Ha); [reflexivity|].
  assert (Ea : s32 a = u) by (subst a; unfold s32, u32; destruct ((u + 4294967296 * k) mod 4294967296 <? 2147483648) eqn:E; lia).
  assert (Eb : s32 b = v) by (subst b; unfold s32, u32; destruct ((v + 4294967296 * l) mod 4294967296 <? 2147483648) eqn:E; lia).
  rewrite Ea, Eb. unfold sint, int_ok, fits32 in *.
  replace ((-2147483648 <=? u + v) && (u + v <=? 2147483647)) with false by lia. reflexivity.
Qed.

(** Counterexamples *)
Definition long_state (a b : Z) : st :=
  mkSt (fun i => if i =? 10 then a mod 65536 else if i =? 11 then a / 65536 else
                 if i =? 12 then b mod 65536 else if i =? 13 then b / 65536 else 0)
       (mkCfg 128 16 96 8 32) 26 0 16 0x40 0 (-1).

Lemma long_order_wrong : exists c R s a b s' r,
  In (c, R) long_relation_ops /\ room s 0 /\ 8 <= sp s < 65536 /\ long_at s 0 b /\ long_at s 2 a /\
  exec_insn s (mkOp oLONGOP8 c 0) = Ok s' /\ tos s' 0 = Some r /\ ~ R a b r.
Proof.
  exists nDLT, (lsgn2 (fun x y r => truth r (x < y))), (long_state 65536 65537), 65536, 65537.
  eexists. exists 0. split; [cbn; tauto|]. split; [unfold room; cbn; lia|]. split; [cbn; lia|].
  split; [exists 1, 1; vm_compute; auto|]. split; [exists 0, 1; vm_compute; auto|].
  split; [vm_compute; reflexivity|]. split; [reflexivity|].
  intros (x & y & [Hx [k Hk]] & [Hy [l Hl]] & [[_ H]|[H _]]); lia.
Qed.

Lemma long_xchg_wrong : exists s a b s',
  8 <= sp s < 65536 /\ long_at s 0 b /\ long_at s 2 a /\
  exec_insn s (mkOp oLONGOP8 nDXCHG 0) = Ok s' /\ ~ (long_at s' 0 a /\ long_at s' 2 b).
Proof.
  exists (long_state 65538 262149), 65538, 262149. eexists.
  split; [cbn; lia|]. split; [exists 5, 4; vm_compute; auto|]. split; [exists 2, 1; vm_compute; auto|].
  split; [vm_compute; reflexivity|].
  intros [(lo & hi & H1 & H2 & H3) _]. vm_compute in H1, H2. injection H1 as <-. injection H2 as <-. lia.
Qed.
