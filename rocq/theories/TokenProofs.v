(** Lemmas about the tokenizer. *)

From Coq Require Import ZArith Bool String List Lia ZifyBool Arith.
From Verif Require Import TokenModel TokenSpec.
Import ListNotations.
Open Scope Z_scope.

(** ** Reading characters *)

Lemma next_line_ahead b ls y r : concat ls = y :: r -> ahead (next_line b ls) (y :: r).
Proof.
  revert b. induction ls as [|l ls IH]; intros b E; [discriminate|].
  destruct l as [|x l]; cbn in E |- *; [apply IH, E|].
  injection E as -> <-. reflexivity.
Qed.

Lemma get_char_ahead c x y r : ahead c (x :: y :: r) -> ahead (get_char c) (y :: r).
Proof.
  unfold ahead, get_char, skip_line. intro H. injection H as Hx H.
  destruct (cpos c) as [|z p]; cbn in H |- *.
  - apply next_line_ahead. symmetry. exact H.
  - injection H as -> ->. reflexivity.
Qed.

Lemma ahead_ic c x r : ahead c (x :: r) -> ic c = x.
Proof. unfold ahead. intro H. injection H as -> _. reflexivity. Qed.

Lemma peek_line_ahead b ls y r : concat ls = y :: r ->
  ic (peek_line b ls) = y /\ cpos (peek_line b ls) ++ concat (clines (peek_line b ls)) = y :: r.
Proof.
  revert b. induction ls as [|l ls IH]; intros b E; [discriminate|].
  destruct l as [|x l]; cbn in E |- *; [apply IH, E|].
  injection E as -> <-. split; reflexivity.
Qed.

Lemma peek_char_ahead c x y r : ahead c (x :: y :: r) ->
  ic (peek_char c) = y /\ cpos (peek_char c) ++ concat (clines (peek_char c)) = y :: r.
Proof.
  unfold ahead, peek_char. intro H. injection H as Hx H.
  destruct (cpos c) as [|z p] eqn:E; cbn in H |- *.
  - apply peek_line_ahead. symmetry. exact H.
  - injection H as -> ->. split; reflexivity.
Qed.

Lemma ahead_peek_get c x y z r : ahead c (x :: y :: z :: r) -> ahead (get_char (peek_char c)) (y :: z :: r).
Proof.
  intro H. destruct (peek_char_ahead _ _ _ _ H) as [H1 H2].
  unfold ahead, get_char, skip_line. destruct (cpos (peek_char c)) as [|a p] eqn:E; cbn in H2 |- *.
  - apply next_line_ahead. exact H2.
  - injection H2 as -> H2. rewrite H2. reflexivity.
Qed.

Lemma take_while_ahead p l : forall fuel c x r, ahead c (l ++ x :: r) -> Forall (fun a => p a = true) l -> p x = false ->
  (List.length l <= fuel)%nat -> exists c', take_while fuel p c = Some (l, c') /\ ahead c' (x :: r).
Proof.
  induction l as [|a l IH]; intros fuel c x r H Hl Hx Hf.
  - cbn in H. exists c. split; [|exact H]. apply ahead_ic in H. destruct fuel; cbn; rewrite H, Hx; reflexivity.
  - inversion_clear Hl as [|? ? Ha Hl']. cbn in Hf. destruct fuel as [|fuel]; [lia|]. cbn.
    pose proof (ahead_ic _ _ _ H) as E. rewrite E, Ha.
    destruct l as [|b l].
    + cbn in H. apply get_char_ahead in H. destruct (IH fuel _ _ _ H Hl' Hx ltac:(cbn; lia)) as (c' & E' & H').
      rewrite E'. exists c'. split; [reflexivity | exact H'].
    + assert (H1 : ahead (get_char c) ((b :: l) ++ x :: r)) by (apply get_char_ahead with a; exact H).
      destruct (IH fuel _ _ _ H1 Hl' Hx ltac:(cbn in *; lia)) as (c' & E' & H').
      rewrite E'. exists c'. split; [reflexivity | exact H'].
Qed.

(** Without characters to take *)
Lemma take_while_stop p fuel c : p (ic c) = false -> take_while fuel p c = Some ([], c).
Proof. intro H. destruct fuel; cbn; rewrite H; reflexivity. Qed.

(** ** Numbers *)

Lemma is_digit_dec c : dec_digit c <-> is_digit c = true.
Proof. unfold dec_digit, is_digit. lia. Qed.

Lemma digits_forall ds : Forall dec_digit ds -> Forall (fun a => is_digit a = true) ds.
Proof. apply Forall_impl. intros a. apply is_digit_dec. Qed.

Lemma numeric_dec ds : Forall dec_digit ds -> numeric_value 10 ds = dec_value ds.
Proof.
  unfold numeric_value, dec_value. generalize 0. induction ds as [|d ds IH]; intros v H; [reflexivity|].
  inversion_clear H as [|? ? Hd H']. cbn [fold_left]. rewrite IH by exact H'.
  replace (v * 10 + digit_value d) with (10 * v + (d - 48)); [reflexivity|].
  unfold digit_value. apply is_digit_dec in Hd. rewrite Hd. lia.
Qed.

Definition plain (k : tkn) : tkn := with_str (with_ptr k None) [].

Lemma plain_plain k : plain (plain k) = plain k.
Proof. destruct k; reflexivity. Qed.

Lemma get_token_plain f e c k : get_token f e c (plain k) = get_token f e c k.
Proof. destruct f; [reflexivity|]. destruct k; reflexivity. Qed.

Lemma decimal e c k ds x r :
  ahead c (ds ++ x :: r) -> ds <> [] -> Forall dec_digit ds -> dec_value ds < 4294967296 ->
  ~ dec_digit x -> x <> 101 -> x <> 69 -> (x = 46 -> exists r', r = 46 :: r') ->
  exists c' k', settles e c k (TOk c' k') /\ ahead c' (x :: r) /\
    k_tok k' = tINT_CONST /\ k_uint k' = dec_value ds /\ k_errs k' = k_errs k.
Proof.
  intros H Hne Hd Hv Hx Hx1 Hx2 Hp.
  assert (Hnd : is_digit x = false) by (destruct (is_digit x) eqn:E; [apply is_digit_dec in E; contradiction | reflexivity]).
  destruct ds as [|d ds]; [contradiction|].
  pose proof (Forall_inv Hd) as Hd0. pose proof (digits_forall _ Hd) as Hall.
  assert (Ic : ic c = d) by (apply ahead_ic in H; exact H).
  set (k0 := plain k).
  set (kr := with_str (with_uint (with_tok k0 tINT_CONST) (dec_value (d :: ds))) []).
  assert (Main : exists c', ahead c' (x :: r) /\ forall f, (S (List.length (d :: ds)) <= f)%nat -> get_token f e c k = TOk c' kr).
  { destruct (take_while_ahead is_digit (d :: ds) (List.length (d :: ds)) c x r H Hall Hnd ltac:(lia)) as (c1 & E1 & H1).
    assert (E1' : forall f, (List.length (d :: ds) <= f)%nat -> take_while f is_digit c = Some (d :: ds, c1)).
    { intros f Hf. destruct (take_while_ahead is_digit (d :: ds) f c x r H Hall Hnd Hf) as (c2 & E2 & H2).
      rewrite E2. f_equal. f_equal.
      clear -E1 E2 Hf. revert E1 E2. generalize (List.length (d :: ds)) as g. intro g.
      assert (M : forall g f c l1 c1 l2 c2, take_while g is_digit c = Some (l1, c1) -> take_while f is_digit c = Some (l2, c2) -> c1 = c2).
      { clear. induction g as [|g IH]; intros [|f] c l1 c1 l2 c2; cbn; destruct (is_digit (ic c)); try congruence; [].
        destruct (take_while g is_digit (get_char c)) as [[a b]|] eqn:Ea; [|discriminate].
        destruct (take_while f is_digit (get_char c)) as [[a' b']|] eqn:Eb; [|discriminate].
        intros X Y. injection X as <- <-. injection Y as <- <-. eapply IH; eauto. }
      intros. eapply M; eauto. }
    pose proof (ahead_ic _ _ _ H1) as I1.
    assert (Step : forall f, (S (List.length (d :: ds)) <= f)%nat -> get_token f e c k = unsigned_number f c k0).
    { intros f Hf. destruct f as [|f]; [lia|]. cbn [get_token].
      rewrite take_while_stop by (rewrite Ic; unfold is_space, dec_digit in *; lia).
      rewrite Ic.
      replace (is_alpha d || (d =? 95)) with false by (unfold is_alpha, is_upper, is_lower, dec_digit in *; lia).
      replace (is_digit d) with true by (symmetry; apply is_digit_dec; exact Hd0). reflexivity. }
    assert (Conv : forall v, sscanf 10 (d :: ds) v = Some (dec_value (d :: ds))).
    { intro v. unfold sscanf. rewrite numeric_dec by exact Hd. replace (dec_value (d :: ds) <? 4294967296) with true by lia. reflexivity. }
    destruct (Z.eq_dec x 46) as [-> | Nx].
    - destruct (Hp eq_refl) as [r' ->].
      destruct (peek_char_ahead _ _ _ _ H1) as [P1 P2].
      exists (peek_char c1). split; [unfold ahead; rewrite P1, P2; reflexivity|].
      intros f Hf. rewrite Step by exact Hf. unfold unsigned_number. rewrite E1' by lia. rewrite I1.
      cbn [Z.eqb Pos.eqb orb negb]. rewrite P1. cbn [Z.eqb Pos.eqb]. rewrite Conv. reflexivity.
    - exists c1. split; [exact H1|]. intros f Hf. rewrite Step by exact Hf. unfold unsigned_number. rewrite E1' by lia.
      rewrite I1. replace ((x =? 101) || (x =? 69)) with false by lia. replace (negb (x =? 46)) with true by lia.
      rewrite Conv. reflexivity. }
  destruct Main as (c' & Hc & Hm). exists c', kr. split; [eexists; exact Hm|]. split; [exact Hc|].
  split; [reflexivity|]. split; reflexivity.
Qed.
