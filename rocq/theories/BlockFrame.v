(** The variables of a procedure in memory, and its call. *)

From Coq Require Import ZArith Bool List Lia ZifyBool.
From Verif Require Import Words WordLemmas State StateLemmas Opcodes EncodeModel SetModel LongModel Machine VmSpec VmProofs MemProofs MultiProofs CallProofs
  OptSpec OptUnaryStep ExprModel ExprSpec ExprRun ExprOps ExprLoad ExprProofs ExprMain StmtModel StmtSpec StmtPlain StmtRun StmtStore StmtStep
  StmtMain ActModel ActSpec ActProofs ActRun BlockModel BlockSpec BlockProofs.
Import ListNotations.
Open Scope Z_scope.

Lemma sizes_small t : 1 <= size_of t <= slot (ByValue t) /\ slot (ByValue t) <= 4.
Proof. destruct t; cbn; lia. Qed.

(** ** The variables in front of the frame *)

Record front (k total : Z) (fs : list var) : Prop :=
  { fr_at : forall x, In x fs -> vlev x = k /\ - total <= voff x /\ voff x + size_of (vty x) <= 0 /\ voff x mod 2 = 0;
    fr_sep : forall x y, In x fs -> In y fs -> x <> y -> disjoint (voff x) (size_of (vty x)) (voff y) (size_of (vty y)) }.

Lemma front_cons k p ps fs : front k (slots ps) fs -> front k (slots (p :: ps)) (parm_var k p ps :: fs).
Proof.
  intros [A B]. pose proof (slots_cons p ps) as E. pose proof (slots_even ps) as Ev. pose proof (slots_pos ps).
  assert (S : 1 <= size_of (vty (parm_var k p ps)) <= slot p /\ slot p <= 4 /\ slot p mod 2 = 0).
  { unfold parm_var. cbn [vty]. destruct p as [t|t]; [destruct t; cbn; lia|cbn; lia]. }
  assert (H1 : voff (parm_var k p ps) = - slots (p :: ps)) by reflexivity.
  constructor.
  - intros x [<-|Hx].
    + split; [reflexivity|]. rewrite H1. lia.
    + specialize (A x Hx). lia.
  - intros x y [<-|Hx] [<-|Hy] N; [congruence| | |apply B; assumption].
    + specialize (A y Hy). unfold disjoint. rewrite H1. lia.
    + specialize (A x Hx). unfold disjoint. rewrite H1. lia.
Qed.
Lemma front_more k m n fs : m <= n -> front k m fs -> front k n fs.
Proof. intros L [A B]. constructor; [|exact B]. intros x Hx. specialize (A x Hx). lia. Qed.
Lemma value_front k ps : front k (slots ps) (value_vars k ps).
Proof.
  induction ps as [|p ps IH]; [constructor; [intros x []|intros x y []]|].
  cbn [value_vars]. destruct (by_value p); [apply front_cons, IH|]. apply (front_more k (slots ps)); [|exact IH].
  rewrite slots_cons. assert (2 <= slot p) by (destruct p as [[]|]; cbn; lia). lia.
Qed.
Definition behind (res : option etype) (ps : list parm) : Z := slots (match res with None => ps | Some t => ByValue t :: ps end).
Lemma all_front k res ps : front k (behind res ps) (result_vars k res ps ++ value_vars k ps).
Proof.
  destruct res as [t|]; cbn [result_vars behind app]; [|apply value_front].
  apply (front_cons k (ByValue t) ps _ (value_front k ps)).
Qed.

(** ** Finding the values *)

Lemma choose (T : var -> Z -> Prop) xs : (forall x, In x xs -> exists z, T x z) -> exists r : env, forall x, In x xs -> T x (r x).
Proof.
  induction xs as [|y xs IH]; intros H.
  - exists (fun _ => 0). intros x [].
  - destruct IH as (r & R); [intros x Hx; apply H; right; exact Hx|]. destruct (H y (or_introl eq_refl)) as (z & Z1).
    exists (set r y z). intros x Hx. destruct (var_eqb x y) eqn:E.
    + apply var_eqb_iff in E. subst x. rewrite set_same. exact Z1.
    + assert (x <> y) by (intros ->; assert (var_eqb y y = true) by (apply var_eqb_iff; reflexivity); congruence).
      rewrite set_other by assumption. destruct Hx as [->|Hx]; [congruence|apply R, Hx].
Qed.

Lemma any_contents s t a : c_ssz (cf s) mod 2 = 0 -> 0 <= a -> a + size_of t <= c_ssz (cf s) -> (size_of t <> 1 -> a mod 2 = 0) ->
  exists z, contains s t a z.
Proof.
  intros Ev A0 A1 Al.
  assert (W : forall i, a <= 2 * i -> 2 * i + 2 <= a + size_of t -> exists w, rd s i = Some w /\ 0 <= w < 65536).
  { intros i I1 I2. exists (u16 (mem s i)). split; [|apply u16_range]. apply rd_in. unfold in_word. lia. }
  assert (B : exists b, rdb s a = Some b /\ 0 <= b < 256).
  { pose proof (sizes_small t). exists (byte_of (mem s) a). unfold rdb, in_byte. replace ((0 <=? a) && (a <? c_ssz (cf s))) with true by lia.
    split; [reflexivity|]. unfold byte_of. destruct (a mod 2 =? 0); unfold u8; apply Z.mod_pos_bound; lia. }
  assert (W1 : size_of t = 2 -> exists z, rd s (a / 2) = Some (z mod 65536)).
  { intros S. specialize (Al ltac:(lia)). destruct (W (a / 2)) as (w & W1 & W2); [lia|lia|]. exists w. rewrite Z.mod_small by lia. exact W1. }
  assert (W2 : size_of t = 4 -> exists z, a mod 2 = 0 /\ rd s (a / 2) = Some (z mod 65536) /\ rd s (a / 2 + 1) = Some ((z / 65536) mod 65536)).
  { intros S. specialize (Al ltac:(lia)). destruct (W (a / 2)) as (w & X1 & X2); [lia|lia|]. destruct (W (a / 2 + 1)) as (v & Y1 & Y2); [lia|lia|].
    exists (w + v * 65536). split; [exact Al|]. rewrite X1, Y1. split; f_equal; lia. }
  destruct B as (b & B1 & B2).
  destruct t; cbn [contains]; try (apply W1; reflexivity); try (apply W2; reflexivity).
  - exists ((if b <? 128 then b else b - 256) mod 65536). eexists. split; [|reflexivity]. cbn [element]. exists b. split; [exact B1|].
    unfold word16. rewrite Zmod_mod. set (q := if b <? 128 then b else b - 256). split; [lia|].
    exists (- (q / 65536)). lia.
  - exists b. exists b. split; [exact B1|]. rewrite Z.mod_small; lia.
  - exists b. exists b. split; [exact B1|]. rewrite Z.mod_small; lia.
Qed.

(** ** The frame *)

Definition frame_adr (k F : Z) (oadr : var -> Z) (x : var) : Z :=
  if vlev x =? k then (if voff x <? 0 then F + voff x else F + 10 + voff x) else oadr x.

Lemma reaches_ext s s' f k g : (forall i, rd s' i = rd s i) -> reaches s f k g -> reaches s' f k g.
Proof.
  intros H R. induction R as [|f g h k Hs R IH]; [constructor|]. econstructor; [|exact IH]. unfold slink in *. rewrite H. exact Hs.
Qed.

Lemma own_address k s x a : 0 < k -> vlev x = k -> -32768 <= voff x <= 32767 -> 0 <= a < 65536 ->
  a = (if voff x <? 0 then fp s + voff x else fp s + 10 + voff x) -> var_address k s x a.
Proof.
  intros K L O A E. unfold var_address. rewrite L. replace (k =? 0) with false by lia. replace (k - k) with 0 by lia.
  exists (fp s), (voff x). split; [constructor|]. split.
  - split; [lia|]. exists (- (voff x / 65536)). lia.
  - split; [lia|]. exists 0. destruct (voff x <? 0) eqn:B.
    + replace (voff x >=? 0) with false by lia. lia.
    + replace (voff x >=? 0) with true by lia. lia.
Qed.

Section Frame.
  Variables (n total d dstack h obase : Z) (os fs ls : list var) (oadr : var -> Z) (olinks : Z -> Prop) (s s2 : st).
  Notation k := (n + 1).
  Notation F := (fp s2).
  Hypothesis N0 : 0 <= n.
  Hypothesis Po : placed n os oadr olinks obase (with_fp s h).
  Hypothesis Ob : obase <= sp s / 2.
  Hypothesis Ov : forall x, In x os -> vlev x <= n.
  Hypothesis Fr : front k total fs.
  Hypothesis Lo : locals k dstack ls.
  Hypothesis Hd : d = whole dstack.
  Hypothesis Ds : 0 <= dstack <= 32766.
  Hypothesis Tt : 0 <= total <= 32768.
  Hypothesis Te : total mod 2 = 0.
  Hypothesis Sp : 0 <= sp s.
  Hypothesis Se : sp s mod 2 = 0.
  Hypothesis Ff : F = sp s + 2 + total.
  Hypothesis S2 : sp s2 = F + 8.
  Hypothesis Rm : sp s2 + d < c_ssz (cf s2).
  Hypothesis Sz : c_ssz (cf s2) <= 65536.
  Hypothesis Ev : c_ssz (cf s2) mod 2 = 0.
  Hypothesis Cf : cf s2 = cf s.
  Hypothesis Same : forall i, i <= sp s / 2 -> rd s2 i = rd s i.
  Hypothesis Sl : slink s2 F h.

  Definition xs_all : list var := os ++ fs ++ ls.
  Definition links_all (j : Z) : Prop := olinks j \/ F / 2 <= j < F / 2 + 5.
  Notation adr := (frame_adr k F oadr).

  Lemma adr_out x : In x os -> adr x = oadr x.
  Proof. intros Hx. specialize (Ov x Hx). unfold frame_adr. replace (vlev x =? k) with false by lia. reflexivity. Qed.
  Lemma adr_front x : In x fs -> adr x = F + voff x /\ vlev x = k /\ - total <= voff x /\ voff x + size_of (vty x) <= 0 /\ voff x mod 2 = 0 /\ 1 <= size_of (vty x).
  Proof.
    intros Hx. destruct (fr_at _ _ _ Fr x Hx) as (A & B & C & D). pose proof (sizes_small (vty x)). unfold frame_adr.
    replace (vlev x =? k) with true by lia. replace (voff x <? 0) with true by lia. lia.
  Qed.
  Lemma adr_local x : In x ls -> adr x = F + 10 + voff x /\ vlev x = k /\ 0 <= voff x /\ voff x + size_of (vty x) <= dstack /\
    (size_of (vty x) <> 1 -> voff x mod 2 = 0) /\ 1 <= size_of (vty x).
  Proof.
    intros Hx. destruct (lo_at _ _ _ Lo x Hx) as (A & B & C & D). pose proof (sizes_small (vty x)). unfold frame_adr.
    replace (vlev x =? k) with true by lia. replace (voff x <? 0) with false by lia. intuition lia.
  Qed.
  Lemma adr_below x : In x os -> 0 <= adr x /\ adr x + size_of (vty x) - 1 <= sp s + 1 /\ 1 <= size_of (vty x).
  Proof.
    intros Hx. rewrite adr_out by exact Hx. destruct (pl_vars _ _ _ _ _ _ Po x Hx) as (A & B & _). pose proof (sizes_small (vty x)). lia.
  Qed.
  Lemma d_range : dstack <= d <= dstack + 1 /\ d mod 2 = 0.
  Proof. rewrite Hd. unfold whole. lia. Qed.

  Lemma frame_placed : placed k xs_all adr links_all ((sp s2 + d) / 2) s2.
  Proof.
    pose proof d_range as Dr. constructor.
    - lia.
    - intros s' (R1 & R2 & R3 & R4 & R5) Lk x Hx. unfold xs_all in Hx. apply in_app_or in Hx. destruct Hx as [Hx|Hx]; [|apply in_app_or in Hx; destruct Hx as [Hx|Hx]].
      + rewrite adr_out by exact Hx. set (t := with_mem (with_fp s h) (mem s')).
        assert (Rt : forall i, rd t i = rd s' i).
        { intros i. unfold rd. unfold t. cbn [mem with_mem]. replace (in_word (with_mem (with_fp s h) (mem s')) i) with (in_word s' i); [reflexivity|].
          unfold in_word. cbn [cf with_mem with_fp]. rewrite R1, Cf. reflexivity. }
        assert (A : var_address n t x (oadr x)).
        { apply (pl_addr _ _ _ _ _ _ Po t); [|intros j Hj|exact Hx].
          - unfold same_regs, t. cbn. tauto.
          - rewrite Rt, Lk by (left; exact Hj). destruct (pl_links _ _ _ _ _ _ Po j Hj) as (J & _). rewrite Same by lia. reflexivity. }
        unfold var_address in *. destruct (vlev x =? 0) eqn:V0.
        * unfold global_ea in *. unfold t in A. cbn [cf with_mem with_fp] in A. rewrite R1, Cf. exact A.
        * destruct A as (g & z & A1 & A2 & A3). exists g, z. split; [|auto]. specialize (Ov x Hx).
          replace (Z.to_nat (n + 1 - vlev x)) with (S (Z.to_nat (n - vlev x))) by lia. rewrite R3.
          econstructor; [|apply (reaches_ext t s'); [intros i; symmetry; apply Rt|exact A1]].
          unfold slink. rewrite Lk by (right; lia). exact Sl.
      + destruct (adr_front x Hx) as (A1 & A2 & A3 & A4 & A5 & A6). apply own_address; try lia. replace (voff x <? 0) with true by lia. lia.
      + destruct (adr_local x Hx) as (A1 & A2 & A3 & A4 & A5 & A6). apply own_address; try lia. replace (voff x <? 0) with false by lia. lia.
    - intros i [Hi|Hi].
      + destruct (pl_links _ _ _ _ _ _ Po i Hi) as (J1 & J2). split; [lia|].
        intros x Hx. unfold xs_all in Hx. apply in_app_or in Hx. destruct Hx as [Hx|Hx]; [|apply in_app_or in Hx; destruct Hx as [Hx|Hx]]; unfold within.
        * rewrite adr_out by exact Hx. apply (J2 x Hx).
        * destruct (adr_front x Hx). lia.
        * destruct (adr_local x Hx). lia.
      + split; [lia|]. intros x Hx. unfold xs_all in Hx. apply in_app_or in Hx. destruct Hx as [Hx|Hx]; [|apply in_app_or in Hx; destruct Hx as [Hx|Hx]]; unfold within.
        * pose proof (adr_below x Hx). lia.
        * destruct (adr_front x Hx). lia.
        * destruct (adr_local x Hx). lia.
    - intros x Hx. unfold xs_all in Hx. apply in_app_or in Hx. destruct Hx as [Hx|Hx]; [|apply in_app_or in Hx; destruct Hx as [Hx|Hx]].
      + rewrite adr_out by exact Hx. destruct (pl_vars _ _ _ _ _ _ Po x Hx) as (A & B & C). split; [exact A|]. split; [lia|exact C].
      + destruct (adr_front x Hx). split; [lia|]. split; [lia|]. intros _. lia.
      + destruct (adr_local x Hx) as (A1 & A2 & A3 & A4 & A5 & A6). split; [lia|]. split; [lia|]. intros Z1. specialize (A5 Z1). lia.
    - intros x y Hx Hy Ne. unfold xs_all in Hx, Hy.
      apply in_app_or in Hx. apply in_app_or in Hy. unfold disjoint.
      destruct Hx as [Hx|Hx]; [|apply in_app_or in Hx; destruct Hx as [Hx|Hx]];
        (destruct Hy as [Hy|Hy]; [|apply in_app_or in Hy; destruct Hy as [Hy|Hy]]).
      + rewrite !adr_out by assumption. apply (pl_sep _ _ _ _ _ _ Po x y Hx Hy Ne).
      + pose proof (adr_below x Hx). pose proof (adr_front y Hy). lia.
      + pose proof (adr_below x Hx). pose proof (adr_local y Hy). lia.
      + pose proof (adr_below y Hy). pose proof (adr_front x Hx). lia.
      + pose proof (fr_sep _ _ _ Fr x y Hx Hy Ne) as D. unfold disjoint in D. pose proof (adr_front x Hx). pose proof (adr_front y Hy). lia.
      + pose proof (adr_front x Hx). pose proof (adr_local y Hy). lia.
      + pose proof (adr_below y Hy). pose proof (adr_local x Hx). lia.
      + pose proof (adr_front y Hy). pose proof (adr_local x Hx). lia.
      + pose proof (lo_sep _ _ _ Lo x y Hx Hy Ne) as D. unfold disjoint in D. pose proof (adr_local x Hx). pose proof (adr_local y Hy). lia.
  Qed.

  (** Every variable has a value. *)
  Lemma frame_values x : In x xs_all -> exists z, contains s2 (vty x) (adr x) z.
  Proof.
    intros Hx. destruct (pl_vars _ _ _ _ _ _ frame_placed x Hx) as (A & B & C). pose proof d_range. pose proof (sizes_small (vty x)).
    apply any_contents; [exact Ev|exact A| |exact C]. lia.
  Qed.
End Frame.
