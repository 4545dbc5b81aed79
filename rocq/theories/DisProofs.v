(** The listing of P-code shows every instruction. *)

From Coq Require Import ZArith Bool String Ascii List Lia ZifyBool.
From Verif Require Import Words State Opcodes Machine LongModel EncodeModel EncodeSpec EncodeProofs.
From Verif Require Import SysioModel SysioSpec SysioText DisModel DisSpec.
Import ListNotations.
Open Scope Z_scope.

(** ** Texts *)

Lemma split_at (c : Z) : forall a b x y, ~ In c a -> ~ In c b -> a ++ c :: x = b ++ c :: y -> a = b /\ x = y.
Proof.
  induction a as [|p a IH]; intros [|q b] x y Ha Hb E; cbn in *.
  - injection E as ->. auto.
  - injection E as -> _. exfalso. auto.
  - injection E as -> _. exfalso. auto.
  - injection E as -> E. destruct (IH b x y) as [-> ->]; auto.
Qed.

Lemma some_inj (a b : list Z) : Some a = Some b -> a = b.
Proof. congruence. Qed.

Lemma cons_inj (x y : Z) a b : x :: a = y :: b -> x = y /\ a = b.
Proof. intros E. injection E. auto. Qed.

Fixpoint prefixb (a b : list Z) : bool :=
  match a, b with
  | [], _ => true
  | x :: a', y :: b' => (x =? y) && prefixb a' b'
  | _, [] => false
  end.

Lemma prefix_or a : forall b x y, a ++ x = b ++ y -> prefixb a b = true \/ prefixb b a = true.
Proof.
  induction a as [|p a IH]; intros [|q b] x y E; cbn in *; auto.
  injection E as -> E. rewrite Z.eqb_refl. cbn. eauto.
Qed.

Lemma in_b c l : In c l -> existsb (Z.eqb c) l = true.
Proof. intros H. apply existsb_exists. exists c. split; [exact H | apply Z.eqb_refl]. Qed.

Lemma not_in_b c l : existsb (Z.eqb c) l = false -> ~ In c l.
Proof. intros E H. rewrite (in_b c l H) in E. discriminate. Qed.

(** ** Numbers *)

Lemma decimal_inj a b : -10000000000 < a < 10000000000 -> -10000000000 < b < 10000000000 ->
  decimal a = decimal b -> a = b.
Proof.
  intros Ha Hb E. unfold decimal in E.
  assert (P : 10 ^ Z.of_nat 10 = 10000000000) by reflexivity.
  destruct (a <? 0) eqn:A; destruct (b <? 0) eqn:B.
  - apply cons_inj in E as [_ E]. pose proof (digits_ok 10 (- a) ltac:(lia) ltac:(lia)) as (H1 & _).
    pose proof (digits_ok 10 (- b) ltac:(lia) ltac:(lia)) as (H2 & _). rewrite E in H1. lia.
  - pose proof (digits_ok 10 b ltac:(lia) ltac:(lia)) as (_ & H & _). rewrite <- E in H. inversion H as [|? ? D _]; subst.
    unfold digit in D. lia.
  - pose proof (digits_ok 10 a ltac:(lia) ltac:(lia)) as (_ & H & _). rewrite E in H. inversion H as [|? ? D _]; subst.
    unfold digit in D. lia.
  - pose proof (digits_ok 10 a ltac:(lia) ltac:(lia)) as (H1 & _).
    pose proof (digits_ok 10 b ltac:(lia) ltac:(lia)) as (H2 & _). rewrite E in H1. lia.
Qed.

Lemma decimal_chars a c : -10000000000 < a < 10000000000 -> In c (decimal a) -> c = 45 \/ 48 <= c <= 57.
Proof.
  intros Ha H. assert (P : 10 ^ Z.of_nat 10 = 10000000000) by reflexivity. unfold decimal in H. destruct (a <? 0) eqn:A.
  - destruct H as [H|H]; [auto|]. pose proof (digits_ok 10 (- a) ltac:(lia) ltac:(lia)) as (_ & F & _).
    rewrite Forall_forall in F. apply F in H. unfold digit in H. lia.
  - pose proof (digits_ok 10 a ltac:(lia) ltac:(lia)) as (_ & F & _).
    rewrite Forall_forall in F. apply F in H. unfold digit in H. lia.
Qed.

Lemma hex_inj a b : 0 <= a < 16 -> 0 <= b < 16 -> hex a = hex b -> a = b.
Proof. unfold hex. intros Ha Hb. destruct (a <? 10) eqn:?, (b <? 10) eqn:?; lia. Qed.

Lemma hex4_inj a b : 0 <= a < 65536 -> 0 <= b < 65536 -> hex4 a = hex4 b -> a = b.
Proof.
  intros Ha Hb E. unfold hex4 in E.
  apply cons_inj in E as [E1 E]. apply cons_inj in E as [E2 E]. apply cons_inj in E as [E3 E]. apply cons_inj in E as [E4 _].
  apply hex_inj in E1, E2, E3, E4; try (apply Z.mod_pos_bound; lia).
  pose proof (Z.div_mod a 16 ltac:(lia)). pose proof (Z.div_mod b 16 ltac:(lia)).
  pose proof (Z.div_mod (a / 16) 16 ltac:(lia)). pose proof (Z.div_mod (b / 16) 16 ltac:(lia)).
  pose proof (Z.div_mod (a / 256) 16 ltac:(lia)). pose proof (Z.div_mod (b / 256) 16 ltac:(lia)).
  rewrite !Z.div_div in * by lia. change (16 * 16) with 256 in *. change (256 * 16) with 4096 in *.
  assert (0 <= a / 4096 < 16) by (split; [apply Z.div_pos; lia | apply Z.div_lt_upper_bound; lia]).
  assert (0 <= b / 4096 < 16) by (split; [apply Z.div_pos; lia | apply Z.div_lt_upper_bound; lia]).
  rewrite (Z.mod_small (a / 4096)), (Z.mod_small (b / 4096)) in E1 by lia. lia.
Qed.

Lemma hex_chars d : 0 <= d < 16 -> 48 <= hex d <= 102.
Proof. unfold hex. intros H. destruct (d <? 10) eqn:?; lia. Qed.

Lemma hex4_chars a c : In c (hex4 a) -> 48 <= c <= 102.
Proof.
  unfold hex4. cbn [In]. intros [<-|[<-|[<-|[<-|[]]]]]; apply hex_chars; apply Z.mod_pos_bound; lia.
Qed.

(** ** The arguments *)

(** The sub-functions by format *)
Definition sub8 (f : fmt8) (a : Z) : bool :=
  match f with
  | FPOP => (1 <=? a) && (a <=? 24) && negb (a =? 9)
  | SETOP8 => (1 <=? a) && (a <=? 14)
  | OSOP8 => (0 <=? a) && (a <=? 4)
  | _ => true
  end.
Definition sub16 (f : fmt16) (a : Z) : bool :=
  match f with
  | XOP => (1 <=? a) && (a <=? 43)
  | LBOP => (0 <=? a) && (a <=? 26)
  | _ => true
  end.

Definition upto (n : nat) : list Z := map Z.of_nat (seq 0 n).

Lemma upto_in n a : 0 <= a < Z.of_nat n -> In a (upto n).
Proof. intros H. unfold upto. apply in_map_iff. exists (Z.to_nat a). split; [lia|]. apply in_seq. lia. Qed.

Fixpoint eqtext (a b : list Z) : bool :=
  match a, b with [], [] => true | x :: a', y :: b' => (x =? y) && eqtext a' b' | _, _ => false end.

Lemma eqtext_refl a : eqtext a a = true.
Proof. induction a; cbn; [reflexivity | rewrite Z.eqb_refl; assumption]. Qed.

(** A function into texts is defined and injective on part of a finite range, without commas and
    newlines. *)
Definition good (n : nat) (ok : Z -> bool) (f : Z -> option (list Z)) : bool :=
  forallb (fun a => negb (ok a) ||
    match f a with
    | None => false
    | Some t => negb (existsb (Z.eqb 10) t) && negb (existsb (Z.eqb 44) t) &&
                forallb (fun b => negb (ok b) || (a =? b) || match f b with Some u => negb (eqtext t u) | None => false end) (upto n)
    end) (upto n).

Lemma good_spec n ok f : good n ok f = true -> forall a, 0 <= a < Z.of_nat n -> ok a = true ->
  exists t, f a = Some t /\ ~ In 10 t /\ ~ In 44 t /\
  (forall b, 0 <= b < Z.of_nat n -> ok b = true -> f b = Some t -> a = b).
Proof.
  intros G a Ha Oa. unfold good in G. rewrite forallb_forall in G. specialize (G a (upto_in n a Ha)). rewrite Oa in G. cbn in G.
  destruct (f a) as [t|]; [|discriminate]. rewrite !andb_true_iff, !negb_true_iff in G. destruct G as ((G1 & G2) & G3).
  exists t. split; [reflexivity|]. split; [apply not_in_b; exact G1|]. split; [apply not_in_b; exact G2|].
  intros b Hb Ob Eb. rewrite forallb_forall in G3. specialize (G3 b (upto_in n b Hb)). rewrite Ob, Eb in G3. cbn in G3.
  rewrite eqtext_refl, orb_false_r in G3. apply Z.eqb_eq in G3. exact G3.
Qed.

Lemma show8_ok f a : f <> NOARG8 -> 0 <= a < 256 -> sub8 f a = true ->
  exists t, show8 f a = Some t /\ ~ In 10 t /\ ~ In 44 t /\
  (forall b, 0 <= b < 256 -> sub8 f b = true -> show8 f b = Some t -> a = b).
Proof.
  intros Hf Ha Oa. change 256 with (Z.of_nat 256) in *. apply good_spec; try assumption.
  destruct f; try congruence; vm_compute; reflexivity.
Qed.

Lemma show16_ok f a : f <> NOARG16 -> f <> LABEL_DEC -> f <> COMMENT -> 0 <= a < 65536 -> sub16 f a = true ->
  exists t, show16 f a = Some t /\ ~ In 10 t /\
  (forall b, 0 <= b < 65536 -> sub16 f b = true -> show16 f b = Some t -> a = b).
Proof.
  intros Hf H1 H2 Ha Oa.
  assert (F : forall n g, (forall x, sub16 f x = true -> x < Z.of_nat n) -> (forall x, show16 f x = g x) -> good n (sub16 f) g = true ->
    exists t, show16 f a = Some t /\ ~ In 10 t /\ (forall b, 0 <= b < 65536 -> sub16 f b = true -> show16 f b = Some t -> a = b)).
  { intros n g Hn Hg G. destruct (good_spec _ _ _ G a ltac:(specialize (Hn a Oa); lia) Oa) as (t & T1 & T2 & _ & T3).
    exists t. rewrite Hg. split; [exact T1|]. split; [exact T2|]. intros b Hb Ob Eb. rewrite Hg in Eb.
    apply T3; auto. specialize (Hn b Ob). lia. }
  destruct f; try congruence.
  - exists (chars "0x" ++ hex4 a). split; [reflexivity|]. split.
    + intros I. apply in_app_or in I as [I|I]; [cbn in I; lia | apply hex4_chars in I; lia].
    + intros b Hb _ E. cbn [show16] in E. apply some_inj in E. apply app_inv_head in E. symmetry. apply hex4_inj; auto.
  - exists (decimal (s16 a)). assert (S : forall x, -32768 <= s16 x <= 32767).
    { intros x. unfold s16. cbv zeta. pose proof (Z.mod_pos_bound x 65536 ltac:(lia)). unfold u16. destruct (_ <? _) eqn:?; lia. }
    split; [reflexivity|]. split.
    + intros I. apply decimal_chars in I; [lia|]. specialize (S a). lia.
    + intros b Hb _ E. cbn [show16] in E. apply some_inj in E. pose proof (S a). pose proof (S b). apply decimal_inj in E; [|lia|lia].
      unfold s16, u16 in E. cbv zeta in E. rewrite (Z.mod_small a), (Z.mod_small b) in E by lia.
      destruct (a <? _) eqn:?, (b <? _) eqn:?; lia.
  - exists (decimal a). split; [reflexivity|]. split.
    + intros I. apply decimal_chars in I; lia.
    + intros b Hb _ E. cbn [show16] in E. apply some_inj in E. apply decimal_inj in E; lia.
  - apply (F 44%nat (show16 XOP)); [intros x; cbn; lia | reflexivity | vm_compute; reflexivity].
  - apply (F 27%nat (show16 LBOP)); [intros x; cbn; lia | reflexivity | vm_compute; reflexivity].
Qed.
