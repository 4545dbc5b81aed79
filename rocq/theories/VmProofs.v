(** Proofs about the 16-bit instructions. *)

From Coq Require Import ZArith Bool List Lia ZifyBool.
From Verif Require Import Words State Opcodes SetModel LongModel Machine WordLemmas StateLemmas VmSpec.
Import ListNotations.
Open Scope Z_scope.
Ltac Zify.zify_post_hook ::= Z.div_mod_to_equations.

(** ** Words *)

Lemma signed16_s16 w : signed16 w (s16 w).
Proof. split; [pose proof (s16_range w); lia|]. unfold s16, u16. 
  destruct (w mod 65536 <? 32768) eqn:E.
  - exists (w / 65536). lia.
  - exists (w / 65536 + 1). lia.
Qed.
Lemma signed16_unique w x : signed16 w x -> x = s16 w.
Proof. intros [H [k Hk]]. subst w. unfold s16, u16.
  destruct ((x + 65536 * k) mod 65536 <? 32768) eqn:E; lia. Qed.
Lemma word16_u16 z : word16 (u16 z) z.
Proof. split; [pose proof (u16_range z); lia|]. exists (- (z / 65536)). unfold u16. lia. Qed.
Lemma word16_iff r z : word16 r z <-> r = u16 z.
Proof. split; [intros [H [k Hk]]; unfold u16; lia|intros ->; apply word16_u16]. Qed.
Lemma word16_s16_u16 z : word16 (u16 (s16 z)) z.
Proof. rewrite u16_s16; apply word16_u16. Qed.
Lemma truth_pbool b P : (b = true <-> P) -> truth (pbool b) P.
Proof. destruct b; unfold truth, pbool; intros H; [left|right]; intuition congruence. Qed.

Lemma sgn1_intro (R : Z -> Z -> Prop) a r : R (s16 a) r -> sgn1 R a r.
Proof. intros H; exists (s16 a); split; [apply signed16_s16|exact H]. Qed.
Lemma sgn2_intro (R : Z -> Z -> Z -> Prop) a b r : R (s16 a) (s16 b) r -> sgn2 R a b r.
Proof. intros H; exists (s16 a), (s16 b); repeat split; try apply signed16_s16; exact H. Qed.

Lemma truncdiv_quot x y : y <> 0 -> truncdiv x y (Z.quot x y) (Z.rem x y).
Proof.
  intros H. unfold truncdiv. pose proof (Z.quot_rem x y H).
  pose proof (Z.rem_bound_abs x y H). pose proof (Z.rem_sign_mul x y H). lia.
Qed.

(** ** One-operand and two-operand combinators *)

Lemma sp_word s k : (sp s - 2 * k) / 2 = sp s / 2 - k.
Proof. lia. Qed.

Lemma unary_ok f s v : tos s 0 = Some v ->
  unary f s = Ok (with_mem s (upd (mem s) (sp s / 2) (u16 (f v)))).
Proof.
  intros H. unfold unary. rewrite H. cbn [bindo]. unfold puttos.
  destruct (tos_some _ _ _ H) as [Hi _].
  rewrite (wr_in _ _ _ Hi). cbn [ret]. replace (sp s / 2 - 0) with (sp s / 2) by lia. reflexivity.
Qed.

Lemma binary_ok f s a b r : sp s < 65536 -> tos s 1 = Some a -> tos s 0 = Some b -> f a b = Some r ->
  binary f s = Ok (with_mem (with_sp s (sp s - 2)) (upd (mem s) (sp s / 2 - 1) (u16 r))).
Proof.
  intros Hs Ha Hb Hf. pose proof (tos_sp _ _ _ Ha) as H2.
  unfold binary. rewrite (pop_eq _ _ Hb). cbn [bindo].
  rewrite u16_small by lia.
  assert (Ha' : tos (with_sp s (sp s - 2)) 0 = Some a).
  { rewrite <- Ha. change 1 with (1 + 0). rewrite <- tos_drop by lia.
    change (2 * 1) with 2. rewrite u16_small by lia. reflexivity. }
  rewrite Ha'. cbn [bindo]. rewrite Hf. cbn [bindo].
  destruct (tos_some _ _ _ Ha') as [Hi _]. unfold puttos. rewrite (wr_in _ _ _ Hi).
  cbn [ret sp mem with_sp]. replace ((sp s - 2) / 2 - 0) with (sp s / 2 - 1) by lia. reflexivity.
Qed.

Lemma cmpz_ok f s v : 0 <= sp s < 65536 -> tos s 0 = Some v ->
  exists s', cmpz f s = Ok s' /\ stack_effect s s' 1 [pbool (f (s16 v))] /\ pc s' = pc s.
Proof.
  intros Hs H. unfold cmpz. rewrite (pop_eq _ _ H). cbn [bindo].
  destruct (tos_some _ _ _ H) as [Hi _]. replace (sp s / 2 - 0) with (sp s / 2) in Hi by lia.
  unfold push. cbn [sp with_sp].
  assert (E : u16 (u16 (sp s - 2) + 2) = sp s).
  { rewrite u16_add_l. replace (sp s - 2 + 2) with (sp s) by lia. apply u16_small; lia. }
  rewrite E.
  rewrite wr_in by exact Hi. cbn [ret]. eexists; split; [reflexivity|]. split; [|reflexivity].
  unfold stack_effect, same_regs. cbn [cf csp fp lsp fch sp with_mem with_sp length nth_error].
  repeat split; try lia.
  - intros [|[|k]] v'; cbn [nth_error]; [|discriminate|discriminate]. intros [= <-].
    unfold rd, in_word; cbn [cf mem with_mem with_sp].
    replace (sp s / 2 - 1 + 1 + Z.of_nat 0) with (sp s / 2) by lia.
    change ((0 <=? sp s / 2) && (sp s / 2 <? c_ssz (cf s) / 2)) with (in_word s (sp s / 2)). rewrite Hi.
    rewrite upd_same. rewrite u16_u16, u16_small by apply pbool_range. reflexivity.
  - intros i Hne. unfold rd, in_word; cbn [cf mem with_mem with_sp].
    rewrite upd_other by lia. reflexivity.
Qed.

Lemma unary_effect f s v : tos s 0 = Some v -> 
  exists s', unary f s = Ok s' /\ stack_effect s s' 1 [u16 (f v)] /\ pc s' = pc s.
Proof.
  intros H. rewrite (unary_ok _ _ _ H). eexists; split; [reflexivity|]. split; [|reflexivity].
  destruct (tos_some _ _ _ H) as [Hi _]. replace (sp s / 2 - 0) with (sp s / 2) in Hi by lia.
  unfold stack_effect, same_regs. cbn [cf csp fp lsp fch sp with_mem with_sp length nth_error].
  repeat split; try lia.
  - intros [|[|k]] v'; cbn [nth_error]; [|discriminate|discriminate]. intros [= <-].
    unfold rd, in_word; cbn [cf mem with_mem with_sp].
    replace (sp s / 2 - 1 + 1 + Z.of_nat 0) with (sp s / 2) by lia.
    change ((0 <=? sp s / 2) && (sp s / 2 <? c_ssz (cf s) / 2)) with (in_word s (sp s / 2)). rewrite Hi.
    rewrite upd_same, u16_u16. reflexivity.
  - intros i Hne. unfold rd, in_word; cbn [cf mem with_mem with_sp].
    rewrite upd_other by lia. reflexivity.
Qed.

Lemma binary_effect f s a b r : sp s < 65536 -> tos s 1 = Some a -> tos s 0 = Some b -> f a b = Some r ->
  exists s', binary f s = Ok s' /\ stack_effect s s' 2 [u16 r] /\ pc s' = pc s.
Proof.
  intros Hs Ha Hb Hf. rewrite (binary_ok _ _ _ _ _ Hs Ha Hb Hf).
  eexists; split; [reflexivity|]. split; [|reflexivity].
  destruct (tos_some _ _ _ Ha) as [Hi _].
  unfold stack_effect, same_regs. cbn [cf csp fp lsp fch sp with_mem with_sp length nth_error].
  repeat split; try lia.
  - intros [|[|k]] v'; cbn [nth_error]; [|discriminate|discriminate]. intros [= <-].
    unfold rd, in_word; cbn [cf mem with_mem with_sp].
    replace (sp s / 2 - 2 + 1 + Z.of_nat 0) with (sp s / 2 - 1) by lia.
    change ((0 <=? sp s / 2 - 1) && (sp s / 2 - 1 <? c_ssz (cf s) / 2)) with (in_word s (sp s / 2 - 1)).
    rewrite Hi. rewrite upd_same, u16_u16. reflexivity.
  - intros i Hne. unfold rd, in_word; cbn [cf mem with_mem with_sp].
    rewrite upd_other by lia. reflexivity.
Qed.

Lemma effect_refl_top s v : tos s 0 = Some v -> stack_effect s s 1 [v].
Proof.
  intros H. unfold stack_effect, same_regs; cbn [length]. repeat split; try lia.
  intros [|[|k]] v'; cbn [nth_error]; [|discriminate|discriminate]. intros [= <-].
  replace (sp s / 2 - 1 + 1 + Z.of_nat 0) with (sp s / 2 - 0) by lia. exact H.
Qed.

Lemma effect_with_pc s s' n l p : stack_effect s s' n l -> stack_effect s (with_pc s' p) n l.
Proof. intros (H1 & H2 & H3 & H4). exact (conj H1 (conj H2 (conj H3 H4))). Qed.

(** The result of an instruction computing [r] from [n] operands. *)
Definition computes (o : st -> outcome) (s : st) (n : Z) (len : Z) (r : Z) : Prop :=
  exists s', o s = Ok s' /\ stack_effect s s' n [r] /\ pc s' = u16 (pc s + len).

Lemma computes_next o s n len r :
  (exists s', o s = Ok s' /\ stack_effect s s' n [r] /\ pc s' = pc s) ->
  computes (fun s => next len (o s)) s n len r.
Proof.
  intros (s' & E & H & P). exists (with_pc s' (u16 (pc s + len))). rewrite E. cbn [next].
  rewrite P. split; [reflexivity|]. split; [apply effect_with_pc, H|reflexivity].
Qed.

Lemma testbit_not16 a i : 0 <= a < 65536 -> 0 <= i < 16 ->
  Z.testbit (u16 (Z.lnot a)) i = negb (Z.testbit a i).
Proof. intros Ha Hi. rewrite testbit_u16 by lia. apply Z.lnot_spec; lia. Qed.

Ltac solve_unary s Hs H f :=
  let X := fresh in
  pose proof (computes_next _ s 1 1 _ (unary_effect f s _ H)) as X;
  destruct X as (s' & E & F & P); exists s'; eexists;
  split; [exact E|split; [|split; [exact F|exact P]]].
Ltac solve_cmpz s Hs H f :=
  let X := fresh in
  pose proof (computes_next _ s 1 1 _ (cmpz_ok f s _ Hs H)) as X;
  destruct X as (s' & E & F & P); exists s'; eexists;
  split; [exact E|split; [|split; [exact F|exact P]]];
  apply sgn1_intro, truth_pbool; lia.

Lemma unary_ops_correct c D R s a x y :
  In (c, D, R) unary_ops -> 0 <= sp s < 65536 -> tos s 0 = Some a -> D a ->
  exists s' r, exec_insn s (mkOp c x y) = Ok s' /\ R a r /\ stack_effect s s' 1 [r] /\
               pc s' = u16 (pc s + 1).
Proof.
  intros Hin Hs H HD. pose proof (tos_range _ _ _ H) as Ha.
  cbn [In unary_ops] in Hin.
  repeat (destruct Hin as [Hin|Hin]; [injection Hin; intros <- <- <-; clear Hin|]); [..|destruct Hin].
  - solve_unary s Hs H (fun v => u16 (- s16 v)). apply sgn1_intro. rewrite u16_u16. apply word16_u16.
  - (* ABS *)
    change (exec_insn s (mkOp oABS x y)) with (next 1 (exec8 ABS s)). cbn [exec8].
    rewrite H. cbn [bindo].
    destruct (s16 a <? 0) eqn:E.
    + destruct (tos_some _ _ _ H) as [Hi _].
      destruct (unary_effect (fun v => u16 (- s16 v)) s a H) as (s' & E1 & F & P).
      unfold unary in E1. rewrite H in E1. cbn [bindo] in E1. rewrite E1. cbn [next].
      exists (with_pc s' (u16 (pc s' + 1))); eexists.
      split; [reflexivity|]. split; [|split; [apply effect_with_pc; exact F|cbn [pc with_pc]; congruence]].
      apply sgn1_intro. rewrite u16_u16. replace (Z.abs (s16 a)) with (- s16 a) by lia. apply word16_u16.
    + cbn [next]. exists (with_pc s (u16 (pc s + 1))), a.
      split; [reflexivity|]. split; [|split; [apply effect_with_pc, effect_refl_top, H|reflexivity]].
      apply sgn1_intro. rewrite Z.abs_eq by lia. apply word16_iff. rewrite u16_s16. symmetry; apply u16_small; lia.
  - solve_unary s Hs H (fun v => u16 (v + 1)). apply sgn1_intro. rewrite u16_u16.
    apply word16_iff. rewrite <- (u16_add_l (s16 a)), u16_s16, u16_add_l. reflexivity.
  - solve_unary s Hs H (fun v => u16 (v - 1)). apply sgn1_intro. rewrite u16_u16.
    apply word16_iff. rewrite <- (u16_sub_l (s16 a)), u16_s16, u16_sub_l. reflexivity.
  - solve_unary s Hs H (fun v => u16 (Z.lnot v)). cbv beta. rewrite u16_u16.
    split; [pose proof (u16_range (Z.lnot a)); lia|]. intros i Hi. apply testbit_not16; lia.
  - solve_cmpz s Hs H (fun a => a =? 0).
  - solve_cmpz s Hs H (fun a => negb (a =? 0)).
  - solve_cmpz s Hs H (fun a => a <? 0).
  - solve_cmpz s Hs H (fun a => 0 <=? a).
  - solve_cmpz s Hs H (fun a => 0 <? a).
  - solve_cmpz s Hs H (fun a => a <=? 0).
Qed.

Lemma bitwise_intro f (g : Z -> Z -> Z) a b :
  0 <= g a b < 65536 -> (forall i, Z.testbit (g a b) i = f (Z.testbit a i) (Z.testbit b i)) ->
  bitwise f a b (u16 (g a b)).
Proof.
  intros H1 H2. rewrite u16_small by exact H1. split; [lia|]. intros; apply H2.
Qed.

Lemma u16_mul_s16 a b : u16 (s16 a * b) = u16 (a * b).
Proof.
  destruct (signed16_s16 a) as [_ [k Hk]]. apply (u16_congr _ _ (- k * b)). nia.
Qed.

Ltac solve_binary s Hs Ha Hb f Hf :=
  let X := fresh in
  pose proof (computes_next _ s 2 1 _ (binary_effect f s _ _ _ Hs Ha Hb Hf)) as X;
  destruct X as (s' & E & F & P); exists s'; eexists;
  split; [exact E|split; [|split; [exact F|exact P]]].
Lemma scmp_effect f s a b : sp s < 65536 -> tos s 1 = Some a -> tos s 0 = Some b ->
  exists s', scmp f s = Ok s' /\ stack_effect s s' 2 [pbool (f (s16 a) (s16 b))] /\ pc s' = pc s.
Proof.
  intros Hs Ha Hb. rewrite <- (u16_small (pbool _)) by apply pbool_range.
  exact (binary_effect (fun a b => Some (pbool (f (s16 a) (s16 b)))) s a b _ Hs Ha Hb eq_refl).
Qed.
Lemma ucmp_effect f s a b : sp s < 65536 -> tos s 1 = Some a -> tos s 0 = Some b ->
  exists s', ucmp f s = Ok s' /\ stack_effect s s' 2 [pbool (f a b)] /\ pc s' = pc s.
Proof.
  intros Hs Ha Hb. rewrite <- (u16_small (pbool _)) by apply pbool_range.
  exact (binary_effect (fun a b => Some (pbool (f a b))) s a b _ Hs Ha Hb eq_refl).
Qed.
Ltac solve_scmp s Hs Ha Hb f :=
  let X := fresh in
  pose proof (computes_next _ s 2 1 _ (scmp_effect f s _ _ Hs Ha Hb)) as X;
  destruct X as (s' & E & F & P); exists s'; eexists;
  split; [exact E|split; [|split; [exact F|exact P]]];
  apply sgn2_intro, truth_pbool; lia.
Ltac solve_ucmp s Hs Ha Hb f :=
  let X := fresh in
  pose proof (computes_next _ s 2 1 _ (ucmp_effect f s _ _ Hs Ha Hb)) as X;
  destruct X as (s' & E & F & P); exists s'; eexists;
  split; [exact E|split; [|split; [exact F|exact P]]];
  apply truth_pbool; lia.

Lemma shift16_ok g a n b : 0 <= b < 65536 -> n = s16 b -> b < 32 ->
  shift16 g a n = Some (u16 (g a b)).
Proof.
  intros Hb -> Hl. assert (s16 b = b) as -> by (apply s16_small; lia).
  unfold shift16. replace ((0 <=? b) && (b <? 32)) with true by lia. reflexivity.
Qed.

Lemma binary_ops_correct c D R s a b x y :
  In (c, D, R) binary_ops -> 0 <= sp s < 65536 -> tos s 1 = Some a -> tos s 0 = Some b -> D a b ->
  exists s' r, exec_insn s (mkOp c x y) = Ok s' /\ R a b r /\ stack_effect s s' 2 [r] /\
               pc s' = u16 (pc s + 1).
Proof.
  intros Hin Hs0 H1 H0 HD. assert (Hs : sp s < 65536) by lia.
  pose proof (tos_range _ _ _ H1) as Ha. pose proof (tos_range _ _ _ H0) as Hb.
  cbn [In binary_ops] in Hin.
  repeat (destruct Hin as [Hin|Hin]; [injection Hin; intros <- <- <-; clear Hin|]); [..|destruct Hin].
  - solve_binary s Hs H1 H0 (fun a b => Some (u16 (s16 a + s16 b))) (@eq_refl (option Z) (Some (u16 (s16 a + s16 b)))).
    apply sgn2_intro. rewrite u16_u16. apply word16_u16.
  - solve_binary s Hs H1 H0 (fun a b => Some (u16 (s16 a - s16 b))) (@eq_refl (option Z) (Some (u16 (s16 a - s16 b)))).
    apply sgn2_intro. rewrite u16_u16. apply word16_u16.
  - solve_binary s Hs H1 H0 (fun a b => Some (u16 (s16 a * s16 b))) (@eq_refl (option Z) (Some (u16 (s16 a * s16 b)))).
    apply sgn2_intro. rewrite u16_u16. apply word16_u16.
  - assert (Hf : umul16 a b = Some (u16 (a * b))).
    { unfold umul16, int_ok. replace ((-2147483648 <=? a * b) && (a * b <=? 2147483647)) with true; [reflexivity|].
      symmetry; change (2^31) with 2147483648 in HD. assert (0 <= a * b) by nia. lia. }
    solve_binary s Hs H1 H0 umul16 Hf. rewrite u16_u16. apply word16_u16.
  - assert (Hz : (s16 b =? 0) = false) by (rewrite s16_eq_zero by lia; lia).
    assert (Hf : (fun a b => if s16 b =? 0 then None else Some (u16 (Z.quot (s16 a) (s16 b)))) a b = Some (u16 (Z.quot (s16 a) (s16 b)))).
    { cbv beta. rewrite Hz. reflexivity. }
    solve_binary s Hs H1 H0 (fun a b => if s16 b =? 0 then None else Some (u16 (Z.quot (s16 a) (s16 b)))) Hf.
    apply sgn2_intro. eexists _, _; split; [apply truncdiv_quot; lia|]. rewrite u16_u16. apply word16_u16.
  - assert (Hz : (s16 b =? 0) = false) by (rewrite s16_eq_zero by lia; lia).
    assert (Hf : (fun a b => if s16 b =? 0 then None else Some (u16 (Z.rem (s16 a) (s16 b)))) a b = Some (u16 (Z.rem (s16 a) (s16 b)))).
    { cbv beta. rewrite Hz. reflexivity. }
    solve_binary s Hs H1 H0 (fun a b => if s16 b =? 0 then None else Some (u16 (Z.rem (s16 a) (s16 b)))) Hf.
    apply sgn2_intro. eexists _, _; split; [apply truncdiv_quot; lia|]. rewrite u16_u16. apply word16_u16.
  - assert (Hf : (fun a b => if b =? 0 then None else Some (a / b)) a b = Some (a / b)).
    { cbv beta. replace (b =? 0) with false by lia. reflexivity. }
    solve_binary s Hs H1 H0 (fun a b => if b =? 0 then None else Some (a / b)) Hf.
    exists (a mod b). pose proof (Z.div_mod a b ltac:(lia)). pose proof (Z.mod_pos_bound a b ltac:(lia)).
    rewrite u16_small; [lia|]. split; [apply Z.div_pos; lia|].
    apply Z.div_lt_upper_bound; nia.
  - assert (Hf : (fun a b => if b =? 0 then None else Some (a mod b)) a b = Some (a mod b)).
    { cbv beta. replace (b =? 0) with false by lia. reflexivity. }
    solve_binary s Hs H1 H0 (fun a b => if b =? 0 then None else Some (a mod b)) Hf.
    exists (a / b). pose proof (Z.div_mod a b ltac:(lia)). pose proof (Z.mod_pos_bound a b ltac:(lia)).
    rewrite u16_small by lia. lia.
  - (* SLL *)
    solve_binary s Hs H1 H0 (fun a n => shift16 Z.shiftl (s16 a) (s16 n)) (shift16_ok Z.shiftl (s16 a) _ b Hb eq_refl HD).
    rewrite u16_u16, Z.shiftl_mul_pow2 by lia. rewrite u16_mul_s16. apply word16_u16.
  - (* SRL *)
    solve_binary s Hs H1 H0 (fun a n => shift16 Z.shiftr a (s16 n)) (shift16_ok Z.shiftr a _ b Hb eq_refl HD).
    rewrite u16_u16, Z.shiftr_div_pow2 by lia. exists (a mod 2 ^ b).
    assert (0 < 2 ^ b) by (apply Z.pow_pos_nonneg; lia).
    pose proof (Z.div_mod a (2 ^ b) ltac:(lia)). pose proof (Z.mod_pos_bound a (2 ^ b) ltac:(lia)).
    rewrite u16_small; [lia|]. split; [apply Z.div_pos; lia|]. apply Z.div_lt_upper_bound; nia.
  - (* SRA *)
    solve_binary s Hs H1 H0 (fun a n => shift16 Z.shiftr (s16 a) (s16 n)) (shift16_ok Z.shiftr (s16 a) _ b Hb eq_refl HD).
    rewrite u16_u16, Z.shiftr_div_pow2 by lia. exists (s16 a), (s16 a / 2 ^ b), (s16 a mod 2 ^ b).
    assert (0 < 2 ^ b) by (apply Z.pow_pos_nonneg; lia).
    split; [apply signed16_s16|]. split; [apply Z.div_mod; lia|].
    split; [apply Z.mod_pos_bound; lia|]. apply word16_u16.
  - solve_binary s Hs H1 H0 (fun a b => Some (Z.lor a b)) (@eq_refl (option Z) (Some (Z.lor a b))).
    apply (bitwise_intro orb Z.lor); [apply lor16; lia|intros; apply Z.lor_spec].
  - solve_binary s Hs H1 H0 (fun a b => Some (Z.land a b)) (@eq_refl (option Z) (Some (Z.land a b))).
    apply (bitwise_intro andb Z.land); [apply land16; lia|intros; apply Z.land_spec].
  - solve_binary s Hs H1 H0 (fun a b => Some (Z.lxor a b)) (@eq_refl (option Z) (Some (Z.lxor a b))).
    apply (bitwise_intro xorb Z.lxor); [apply lxor16; lia|intros; apply Z.lxor_spec].
  - solve_scmp s Hs H1 H0 (fun a b => b =? a).
  - solve_scmp s Hs H1 H0 (fun a b => negb (b =? a)).
  - solve_scmp s Hs H1 H0 (fun a b => a <? b).
  - solve_scmp s Hs H1 H0 (fun a b => b <=? a).
  - solve_scmp s Hs H1 H0 (fun a b => b <? a).
  - solve_scmp s Hs H1 H0 (fun a b => a <=? b).
  - solve_ucmp s Hs H1 H0 (fun a b => a <? b).
  - solve_ucmp s Hs H1 H0 (fun a b => b <=? a).
  - solve_ucmp s Hs H1 H0 (fun a b => b <? a).
  - solve_ucmp s Hs H1 H0 (fun a b => a <=? b).
Qed.
