(** The end of the text: termination, and what happens behind the end. *)

From Coq Require Import ZArith Bool String List Lia ZifyBool Arith.
From Verif Require Import TokenModel TokenSpec TokenProofs TokenProofs2 TokenProofs3.
Import ListNotations.
Open Scope Z_scope.

(** A text that ends with a newline *)
Definition text (c : cs) (m : list Z) : Prop := ahead c (m ++ [10]).

Lemma text_ic c m : text c m -> ic c = hd 10 m.
Proof. unfold text. intro H. destruct m; apply ahead_ic in H; exact H. Qed.

Lemma text_next c a m : text c (a :: m) -> text (get_char c) m.
Proof. unfold text. cbn. destruct m; cbn; apply get_char_ahead. Qed.

Lemma next_line_end b ls : concat ls = [] -> finished (next_line b ls).
Proof.
  revert b. induction ls as [|l ls IH]; intros b E; [split; reflexivity|].
  destruct l; [apply IH, E | discriminate].
Qed.

Lemma text_end c : text c [] -> finished (get_char c).
Proof.
  unfold text, ahead, get_char, skip_line. cbn. intro H. injection H as H1 H2. symmetry in H2. apply app_eq_nil in H2. destruct H2 as [H2 H3].
  rewrite H2. apply next_line_end, H3.
Qed.

Lemma take_text p (Hp : p 10 = false) m : forall c, text c m ->
  exists l m' c', m = l ++ m' /\ text c' m' /\ p (hd 10 m') = false /\ forall f, (List.length m <= f)%nat -> take_while f p c = Some (l, c').
Proof.
  induction m as [|a m IH]; intros c H.
  - exists [], [], c. split; [reflexivity|]. split; [exact H|]. split; [exact Hp|]. intros f _.
    apply take_while_stop. rewrite (text_ic _ _ H). exact Hp.
  - destruct (p a) eqn:E.
    + destruct (IH _ (text_next _ _ _ H)) as (l & m' & c' & -> & H1 & H2 & H3).
      exists (a :: l), m', c'. split; [reflexivity|]. split; [exact H1|]. split; [exact H2|]. intros f Hf. cbn in Hf.
      destruct f as [|f]; [lia|]. cbn [take_while]. rewrite (text_ic _ _ H). cbn [hd]. rewrite E, (H3 f) by lia. reflexivity.
    + exists [], (a :: m), c. split; [reflexivity|]. split; [exact H|]. split; [exact E|]. intros f _.
      apply take_while_stop. rewrite (text_ic _ _ H). exact E.
Qed.

Lemma take_space_text m : forall c, text c m ->
  exists l c', (forall f, (List.length m < f)%nat -> take_while f is_space c = Some (l, c')) /\
    ((exists m', m = l ++ m' /\ m' <> [] /\ text c' m' /\ is_space (hd 10 m') = false) \/ finished c').
Proof.
  induction m as [|a m IH]; intros c H.
  - exists [10], (get_char c). pose proof (text_end _ H) as F. split; [|right; exact F].
    intros f Hf. destruct f as [|f]; [cbn in Hf; lia|]. cbn [take_while]. rewrite (text_ic _ _ H). cbn.
    rewrite take_while_stop by (rewrite (proj1 F); reflexivity). reflexivity.
  - destruct (is_space a) eqn:E.
    + destruct (IH _ (text_next _ _ _ H)) as (l & c' & H1 & H2).
      exists (a :: l), c'. split.
      * intros f Hf. cbn in Hf. destruct f as [|f]; [lia|]. cbn [take_while]. rewrite (text_ic _ _ H). cbn [hd]. rewrite E, (H1 f) by lia. reflexivity.
      * destruct H2 as [(m' & -> & H2) | H2]; [left; exists m'; auto | right; exact H2].
    + exists [], c. split.
      * intros f _. apply take_while_stop. rewrite (text_ic _ _ H). exact E.
      * left. exists (a :: m). split; [reflexivity|]. split; [discriminate|]. split; [exact H | exact E].
Qed.

Lemma string_chars_text m : forall c, text c m ->
  exists l b m' c', m = l ++ m' /\ text c' m' /\ (if b : bool then ic c' = 10 else exists m'', m' = 39 :: m'') /\
    forall f, (List.length m <= f)%nat -> string_chars f c = Some (l, b, c').
Proof.
  induction m as [|a m IH]; intros c H.
  - exists [], true, [], c. split; [reflexivity|]. split; [exact H|]. split; [rewrite (text_ic _ _ H); reflexivity|].
    intros f _. destruct f; cbn; rewrite (text_ic _ _ H); reflexivity.
  - destruct (a =? 39) eqn:E; [|destruct (a =? 10) eqn:E1].
    + exists [], false, (a :: m), c. split; [reflexivity|]. split; [exact H|]. split; [exists m; f_equal; lia|].
      intros f _. destruct f; cbn; rewrite (text_ic _ _ H); cbn; rewrite E; reflexivity.
    + exists [], true, (a :: m), c. split; [reflexivity|]. split; [exact H|]. split; [rewrite (text_ic _ _ H); cbn; lia|].
      intros f _. destruct f; cbn; rewrite (text_ic _ _ H); cbn; rewrite E, E1; reflexivity.
    + destruct (IH _ (text_next _ _ _ H)) as (l & b & m' & c' & -> & H1 & H2 & H3).
      exists (a :: l), b, m', c'. split; [reflexivity|]. split; [exact H1|]. split; [exact H2|].
      intros f Hf. cbn in Hf. destruct f as [|f]; [lia|]. cbn [string_chars]. rewrite (text_ic _ _ H). cbn [hd]. rewrite E, E1, (H3 f) by lia. reflexivity.
Qed.

Lemma string_body_text : forall n m c acc k, (List.length m <= n)%nat -> text c m ->
  exists r, forall f, (n < f)%nat -> string_body f c acc k = Some r.
Proof.
  induction n as [n IH] using lt_wf_ind. intros m c acc k Hn H.
  destruct (string_chars_text m c H) as (l & b & m' & c' & -> & H1 & H2 & H3). rewrite app_length in Hn.
  destruct b.
  - eexists. intros f Hf. destruct f as [|f]; [lia|]. cbn [string_body]. rewrite H3 by (rewrite app_length; lia). reflexivity.
  - destruct H2 as [m'' ->]. cbn in Hn. pose proof (text_next _ _ _ H1) as H4.
    destruct (ic (get_char c') =? 39) eqn:E.
    + destruct m'' as [|q m'']; [apply text_ic in H4; cbn in H4; lia|]. pose proof (text_next _ _ _ H4) as H5. cbn in Hn.
      destruct (IH (List.length m'') ltac:(lia) m'' (get_char (get_char c')) (acc ++ l ++ [39]) (k + Z.of_nat (List.length l) + 1) (le_n _) H5) as [r Hr].
      exists r. intros f Hf. destruct f as [|f]; [lia|]. cbn [string_body]. rewrite H3 by (rewrite app_length; cbn; lia). rewrite E. apply Hr. lia.
    + eexists. intros f Hf. destruct f as [|f]; [lia|]. cbn [string_body]. rewrite H3 by (rewrite app_length; cbn; lia). rewrite E. reflexivity.
Qed.

Definition total (g : nat -> tres) : Prop := exists f0 r, r <> TFuel /\ forall f, (f0 <= f)%nat -> g f = r.

Lemma exponent_text m c acc k : text c m -> m <> [] -> total (fun f => exponent f c acc k).
Proof.
  intros H Hm. destruct m as [|a m]; [contradiction|]. pose proof (text_next _ _ _ H) as H1. unfold exponent, total.
  set (c1 := get_char c) in *. clearbody c1.
  assert (X : exists a' c' m', (if (ic c1 =? 45) || (ic c1 =? 43) then (acc ++ [ic c], ic c1 :: nil, get_char c1) else (acc ++ [ic c], 43 :: nil, c1)) = (acc ++ [ic c], a', c') /\ text c' m' /\
     (if (ic c1 =? 45) || (ic c1 =? 43) then ((acc ++ [ic c]) ++ [ic c1], get_char c1) else ((acc ++ [ic c]) ++ [43], c1)) = ((acc ++ [ic c]) ++ a', c')).
  { destruct ((ic c1 =? 45) || (ic c1 =? 43)) eqn:E.
    - destruct m as [|b m]; [apply text_ic in H1; cbn in H1; lia|]. pose proof (text_next _ _ _ H1) as H2. eexists _, _, m. split; [reflexivity|]. split; [exact H2 | reflexivity].
    - eexists _, _, m. split; [reflexivity|]. split; [exact H1 | reflexivity]. }
  destruct X as (a' & c' & m' & _ & H2 & E). rewrite E.
  destruct (take_text is_digit eq_refl m' c' H2) as (l & m2 & c2 & _ & _ & _ & T).
  destruct (is_digit (ic c')).
  - eexists (List.length m'), _. split; [|intros f Hf; rewrite (T f Hf); reflexivity]. discriminate.
  - exists 0%nat. eexists. split; [|reflexivity]. discriminate.
Qed.

Lemma real_text m c acc k : text c m -> total (fun f => real_number f c acc k).
Proof.
  intro H. destruct (take_text is_digit eq_refl m c H) as (l & m2 & c2 & E & H2 & _ & T). unfold total, real_number.
  destruct ((ic c2 =? 101) || (ic c2 =? 69)) eqn:Ee.
  - destruct m2 as [|b m2]; [apply text_ic in H2; cbn in H2; lia|].
    destruct (exponent_text (b :: m2) c2 (acc ++ [46] ++ l) (with_tok k tREAL_CONST) H2 ltac:(discriminate)) as (f0 & r & Hr & Hf).
    exists (f0 + List.length m)%nat, r. split; [exact Hr|]. intros f L. rewrite T by lia. rewrite Ee. apply Hf. lia.
  - eexists (List.length m), _. split; [|intros f L; rewrite T by exact L; rewrite Ee; reflexivity]. discriminate.
Qed.

Lemma peek_line_next b ls y r : concat ls = y :: r -> get_char (peek_line b ls) = next_line b ls.
Proof.
  revert b. induction ls as [|l ls IH]; intros b E; [discriminate|]. destruct l; [apply IH, E | reflexivity].
Qed.

Lemma get_peek c x y r : ahead c (x :: y :: r) -> get_char (peek_char c) = get_char c.
Proof.
  unfold ahead. intro H. injection H as -> H. unfold peek_char. destruct (cpos c) as [|z p] eqn:E.
  - cbn in H. unfold get_char at 2. rewrite E. unfold skip_line. eapply peek_line_next. symmetry. exact H.
  - unfold get_char at 2. rewrite E. reflexivity.
Qed.

Lemma unsigned_text m c k : text c m -> total (fun f => unsigned_number f c k).
Proof.
  intro H. destruct (take_text is_digit eq_refl m c H) as (l & m2 & c2 & E & H2 & _ & T). unfold total, unsigned_number.
  destruct ((ic c2 =? 101) || (ic c2 =? 69)) eqn:Ee.
  - destruct m2 as [|b m2]; [apply text_ic in H2; cbn in H2; lia|].
    destruct (exponent_text (b :: m2) c2 l k H2 ltac:(discriminate)) as (f0 & r & Hr & Hf).
    exists (f0 + List.length m)%nat, r. split; [exact Hr|]. intros f L. rewrite T by lia. rewrite Ee. apply Hf. lia.
  - destruct (negb (ic c2 =? 46)) eqn:Ep.
    + destruct (sscanf 10 l (k_uint k)) eqn:Es; eexists (List.length m), _; (split; [|intros f L; rewrite T by exact L; rewrite Ee, Ep, Es; reflexivity]); discriminate.
    + destruct m2 as [|b m2]; [apply text_ic in H2; cbn in H2; lia|].
      destruct (ic (peek_char c2) =? 46) eqn:Eq.
      * destruct (sscanf 10 l (k_uint k)) eqn:Es; eexists (List.length m), _; (split; [|intros f L; rewrite T by exact L; cbv zeta; rewrite Ee, Ep, Eq, Es; reflexivity]); discriminate.
      * assert (G : get_char (peek_char c2) = get_char c2).
        { unfold text in H2. destruct m2; cbn in H2; eapply get_peek, H2. }
        destruct (real_text m2 (get_char c2) l k (text_next _ _ _ H2)) as (f0 & r & Hr & Hf).
        exists (f0 + List.length m)%nat, r. split; [exact Hr|]. intros f L. rewrite T by lia. cbv zeta. rewrite Ee, Ep, Eq, G. apply Hf. lia.
Qed.

Lemma hexa_text m a c k : text c (a :: m) -> total (fun f => hexadecimal f c k).
Proof.
  intro H. apply text_next in H. destruct (take_text is_hex eq_refl m _ H) as (l & m2 & c2 & E & H2 & _ & T). unfold total, hexadecimal.
  destruct (sscanf 16 (map to_upper l) (k_uint k)) eqn:Es; eexists (List.length m), _; (split; [|intros f L; rewrite T by exact L; rewrite Es; reflexivity]); discriminate.
Qed.

Lemma string_text m a c k : text c (a :: m) -> total (fun f => string_token f c k).
Proof.
  intro H. apply text_next in H. destruct (string_body_text (List.length m) m _ [] 0 (le_n _) H) as [[[[s n] b] c'] Hr].
  unfold total, string_token.
  eexists (S (List.length m)), _. split; [|intros f L; rewrite Hr by lia; reflexivity].
  destruct (i16 n =? 1); discriminate.
Qed.

Lemma skip_text c a m : text c (a :: m) -> finished (skip_line c) \/ exists pre m', m = pre ++ m' /\ text (skip_line c) m'.
Proof.
  unfold text, ahead, skip_line. cbn. intro H. injection H as -> H.
  destruct (concat (clines c)) as [|y r] eqn:E; [left; apply next_line_end, E|]. right.
  destruct (@exists_last _ (y :: r) ltac:(discriminate)) as (r' & z & Er).
  exists (cpos c), r'. rewrite Er in H. rewrite app_assoc in H. apply app_inj_tail in H. destruct H as [-> <-].
  split; [reflexivity|]. rewrite <- Er. apply next_line_ahead, E.
Qed.

Lemma finished_token e c k : finished c -> forall f, get_token (S f) e c k = TOk (get_char c) (with_tok (plain k) 63).
Proof.
  intros [F _] f. rewrite get_token_at, take_space_stop by (rewrite F; reflexivity).
  unfold token_at. cbv zeta. rewrite F. reflexivity.
Qed.

Lemma without_tail a b x m : without a b (x :: m) -> without a b m.
Proof. cbn. destruct m; [auto|]. tauto. Qed.

Lemma no_comment_app p m : no_comment (p ++ m) -> no_comment m.
Proof.
  intros (H1 & H2 & H3). split; [intro; apply H1, in_or_app; auto|].
  clear H1. split.
  - clear H3. induction p; [exact H2|]. apply IHp. eapply without_tail, H2.
  - clear H2. induction p; [exact H3|]. apply IHp. eapply without_tail, H3.
Qed.

Lemma ends_total e : forall n m c k, (List.length m <= n)%nat -> text c m -> no_comment m -> total (fun f => get_token f e c k).
Proof.
  assert (Fin : forall c k, finished c -> total (fun f => get_token f e c k)).
  { intros c k F. eexists 1%nat, _. split; [|intros f L; destruct f as [|f]; [lia|]; rewrite (finished_token e c k F); reflexivity]. discriminate. }
  assert (Down : forall (g h : nat -> tres), total g -> (exists f1, forall f, (f1 <= f)%nat -> h (S f) = g f) -> total h).
  { intros g h (f0 & r & Hr & Hf) (f1 & Hh). exists (S (f0 + f1)), r. split; [exact Hr|]. intros f L. destruct f as [|f]; [lia|]. rewrite Hh by lia. apply Hf. lia. }
  assert (Same : forall (g h : nat -> tres), total g -> (exists f1, forall f, (f1 <= f)%nat -> h f = g f) -> total h).
  { intros g h (f0 & r & Hr & Hf) (f1 & Hh). exists (f0 + f1)%nat, r. split; [exact Hr|]. intros f L. rewrite Hh by lia. apply Hf. lia. }
  assert (Const : forall (h : nat -> tres) r, r <> TFuel -> (exists f1, forall f, (f1 <= f)%nat -> h f = r) -> total h).
  { intros h r Hr (f1 & Hh). exists f1, r. auto. }
  induction n as [n IH] using lt_wf_ind. intros m c k Hn H Hc.
  destruct (take_space_text m c H) as (l & c' & T & [(m' & -> & Hm & H' & Hs) | F]).
  2:{ apply Const with (TOk (get_char c') (with_tok (plain k) 63)); [discriminate|]. exists (S (List.length m)). intros f L. destruct f as [|f]; [lia|].
      rewrite get_token_at, T by lia. unfold token_at. cbv zeta. rewrite (proj1 F). reflexivity. }
  rewrite app_length in Hn. apply no_comment_app in Hc. destruct m' as [|x m']; [contradiction|]. clear Hm.
  pose proof (text_ic _ _ H') as Hic. cbn [hd] in Hic, Hs. cbn [List.length] in Hn.
  pose proof (text_next _ _ _ H') as Hnx. pose proof (text_ic _ _ Hnx) as Hin.
  assert (Unf : forall g, total (fun f => g f) -> (exists f1, forall f, (f1 <= f)%nat -> token_at (S f) f e (k_tok k) c' (plain k) = g (S f)) -> total (fun f => get_token f e c k)).
  { intros g Hg (f1 & Hh). apply Same with g; [exact Hg|]. exists (S (f1 + List.length (l ++ x :: m'))). intros f L.
    destruct f as [|f]; [lia|]. rewrite get_token_at, T by lia. apply Hh. lia. }
  assert (Unf' : forall g, total (fun f => g f) -> (exists f1, forall f, (f1 <= f)%nat -> token_at (S f) f e (k_tok k) c' (plain k) = g f) -> total (fun f => get_token f e c k)).
  { intros g Hg (f1 & Hh). apply Down with g; [exact Hg|]. exists (f1 + S (List.length (l ++ x :: m')))%nat. intros f L.
    rewrite get_token_at, T by lia. apply Hh. lia. }
  assert (One : forall c2 k2, (forall f, token_at (S f) f e (k_tok k) c' (plain k) = TOk c2 k2) -> total (fun f => get_token f e c k)).
  { intros c2 k2 X. apply Unf with (fun _ => TOk c2 k2); [eapply Const; [|exists 0%nat; reflexivity]; discriminate|]. exists 0%nat. intros f _. apply X. }
  unfold token_at in *. cbv zeta in *. rewrite Hic in *.
  destruct (is_alpha x || (x =? 95)).
  { destruct (take_text (fun a => is_alnum a || (a =? 95)) eq_refl (x :: m') c' H') as (w & m2 & c2 & _ & _ & _ & Tw).
    apply Unf with (fun _ => TOk c2 (identifier e (k_tok k) w (plain k))); [eapply Const; [|exists 0%nat; reflexivity]; discriminate|].
    exists (List.length (x :: m')). intros f L. rewrite Tw by lia. reflexivity. }
  destruct (is_digit x); [eapply Unf; [eapply unsigned_text, H' | exists 0%nat; reflexivity]|].
  destruct (x =? 39); [eapply Unf; [eapply string_text, H' | exists 0%nat; reflexivity]|].
  destruct (x =? 58); [destruct (ic (get_char c') =? 61); eapply One; reflexivity|].
  destruct (x =? 46).
  { destruct (ic (get_char c') =? 46); [eapply One; reflexivity|]. destruct (is_digit (ic (get_char c'))); [|eapply One; reflexivity].
    eapply Unf; [eapply real_text, Hnx | exists 0%nat; reflexivity]. }
  destruct (x =? 60); [destruct (ic (get_char c') =? 62), (ic (get_char c') =? 61), (ic (get_char c') =? 60); eapply One; reflexivity|].
  destruct (x =? 62); [destruct (ic (get_char c') =? 62), (ic (get_char c') =? 61), (ic (get_char c') =? 60); eapply One; reflexivity|].
  destruct Hc as (Hc1 & Hc2 & Hc3).
  destruct (x =? 123) eqn:E123; [exfalso; apply Hc1; left; lia|].
  assert (Nstar : (x = 40 \/ x = 47) -> ic (get_char c') =? 42 = false).
  { intro Hx. rewrite Hin. destruct m' as [|y m']; [reflexivity|]. cbn [hd]. cbn in Hc2, Hc3. lia. }
  destruct (x =? 40) eqn:E40; [rewrite Nstar in * by lia; eapply One; reflexivity|].
  destruct (x =? 47) eqn:E47.
  { destruct (ic (get_char c') =? 47) eqn:E2.
    - assert (exists y m2, m' = y :: m2) as (y & m2 & ->) by (destruct m'; [cbn in Hin; lia | eauto]).
      destruct (skip_text (get_char c') y m2 Hnx) as [F | (pre & m3 & -> & H3)].
      + eapply Unf'; [apply Fin, F | exists 0%nat; reflexivity].
      + eapply Unf'; [|exists 0%nat; reflexivity]. cbn in Hn. rewrite app_length in Hn.
        eapply (IH (List.length m3)); [lia | apply le_n | exact H3 |].
        apply (no_comment_app (x :: y :: pre)). cbn. split; [exact Hc1|]. split; [exact Hc2 | exact Hc3].
    - rewrite Nstar in * by lia. eapply One; reflexivity. }
  destruct (x =? 37); [eapply Unf; [eapply hexa_text, H' | exists 0%nat; reflexivity]|].
  destruct (is_ascii x); [eapply One; reflexivity|].
  eapply Unf'; [|exists 0%nat; reflexivity].
  eapply (IH (List.length m')); [lia | apply le_n | exact Hnx |].
  apply (no_comment_app [x]). cbn. split; [exact Hc1|]. split; [exact Hc2 | exact Hc3].
Qed.

Lemma ends e c k m : ahead c (m ++ [10]) -> no_comment m -> exists r, r <> TFuel /\ settles e c k r.
Proof.
  intros H Hc. destruct (ends_total e (List.length m) m c k (le_n _) H Hc) as (f0 & r & Hr & Hf). exists r. split; [exact Hr|]. exists f0. exact Hf.
Qed.

(** ** Comments that are never closed *)

Definition lacks (z : Z) (c : cs) : Prop := ~ In z (cpos c) /\ ~ In z (cbuf c) /\ ~ In z (concat (clines c)).

Lemma next_line_lacks z b ls : z <> 63 -> ~ In z b -> ~ In z (concat ls) -> ic (next_line b ls) <> z /\ lacks z (next_line b ls).
Proof.
  intros Hz. revert b. induction ls as [|l ls IH]; intros b Hb Hl; cbn [next_line].
  - unfold lacks. cbn. intuition lia.
  - destruct l as [|a l]; [apply IH; [tauto | exact Hl]|]. cbn in Hl. unfold lacks. cbn.
    rewrite in_app_iff in Hl. intuition.
Qed.

Lemma get_char_lacks z c : z <> 63 -> lacks z c -> ic (get_char c) <> z /\ lacks z (get_char c).
Proof.
  intros Hz (H1 & H2 & H3). unfold get_char. destruct (cpos c) as [|x p] eqn:E.
  - apply next_line_lacks; assumption.
  - unfold lacks. cbn in H1 |- *. intuition.
Qed.

Lemma brace_never : forall f c, lacks 125 c -> brace_comment f c = None.
Proof.
  induction f as [|f IH]; intros c H; [reflexivity|]. cbn [brace_comment].
  destruct (get_char_lacks 125 c ltac:(lia) H) as [H1 H2]. replace (ic (get_char c) =? 125) with false by lia. apply IH, H2.
Qed.

Lemma star_never cl : cl <> 63 -> forall f la c, lacks cl c -> star_comment f cl la c = None.
Proof.
  intro Hcl. induction f as [|f IH]; intros la c H; [reflexivity|]. cbn [star_comment].
  destruct (get_char_lacks cl c Hcl H) as [H1 H2]. replace ((la =? 42) && (ic (get_char c) =? cl)) with false by lia. apply IH, H2.
Qed.

Lemma open_brace e c k : ic c = 123 -> lacks 125 c -> never e c k.
Proof.
  intros Hic H f. destruct f as [|f]; [reflexivity|]. rewrite get_token_at, take_space_stop by (rewrite Hic; reflexivity).
  unfold token_at. cbv zeta. rewrite Hic.
  cbn [Z.eqb Pos.eqb is_alpha is_upper is_lower is_digit Z.leb Z.compare Pos.compare Pos.compare_cont orb andb].
  rewrite brace_never by exact H. reflexivity.
Qed.

(** ** Behind the end *)

Definition nobody : symenv := mkEnv [] 0 false.
Definition fresh : tkn := mkTkn 0 0 0 [] [] None [].
Definition xline : list Z := [120; 10].
Definition k_x : tkn := mkTkn 1 0 0 [] [120] None [].
Definition k_q : tkn := mkTkn 63 0 0 [] [] None [].

Lemma again_x : settles nobody (mkCs 120 [10] xline []) fresh (TOk (mkCs 10 [] xline []) k_x).
Proof. apply settles_at with 5%nat; [vm_compute; reflexivity | discriminate]. Qed.

Lemma again_q : settles nobody (mkCs 10 [] xline []) k_x (TOk (mkCs 120 [10] xline []) k_q).
Proof. apply settles_at with 5%nat; [vm_compute; reflexivity | discriminate]. Qed.

Lemma again_x' : settles nobody (mkCs 120 [10] xline []) k_q (TOk (mkCs 10 [] xline []) k_x).
Proof. apply settles_at with 5%nat; [vm_compute; reflexivity | discriminate]. Qed.

Lemma endless_tokens : forall n, exists c', nth_token nobody (2 * n) (prime xline) fresh c' k_x.
Proof.
  assert (H : forall n, nth_token nobody (2 * n) (mkCs 120 [10] xline []) k_q (mkCs 10 [] xline []) k_x).
  { induction n as [|n IH]; [apply nt_first, again_x'|].
    replace (2 * S n)%nat with (S (S (2 * n))) by lia.
    eapply nt_next; [exact again_x'|]. eapply nt_next; [exact again_q|]. exact IH. }
  intro n. exists (mkCs 10 [] xline []). change (prime xline) with (mkCs 120 [10] xline []).
  destruct n as [|n]; [apply nt_first, again_x|].
  replace (2 * S n)%nat with (S (S (2 * n))) by lia.
  eapply nt_next; [exact again_x|]. eapply nt_next; [exact again_q|]. apply H.
Qed.

(** ** Numbers that are too large, other prefixes *)

Lemma decimal_large e c k ds x r :
  ahead c (ds ++ x :: r) -> ds <> [] -> Forall dec_digit ds -> 4294967296 <= dec_value ds ->
  ~ dec_digit x -> x <> 101 -> x <> 69 -> x <> 46 -> settles e c k TUB.
Proof.
  intros H Hne Hd Hv Hx Hx1 Hx2 Hp.
  assert (Hnd : is_digit x = false) by (destruct (is_digit x) eqn:E; [apply is_digit_dec in E; contradiction | reflexivity]).
  destruct ds as [|d ds]; [contradiction|].
  pose proof (Forall_inv Hd) as Hd0. pose proof (digits_forall _ Hd) as Hall.
  assert (Ic : ic c = d) by (apply ahead_ic in H; exact H).
  destruct (take_while_ahead is_digit (d :: ds) (S (List.length (d :: ds))) c x r H Hall Hnd ltac:(lia)) as (c1 & E1 & H1).
  apply settles_at with (S (List.length (d :: ds))); [|discriminate].
  rewrite get_token_at, take_space_stop by (rewrite Ic; unfold is_space, dec_digit in *; lia).
  unfold token_at. cbv zeta. rewrite Ic.
  replace (is_alpha d || (d =? 95)) with false by (unfold is_alpha, is_upper, is_lower, dec_digit in *; lia).
  replace (is_digit d) with true by (symmetry; apply is_digit_dec; exact Hd0).
  unfold unsigned_number. rewrite E1, (ahead_ic _ _ _ H1).
  replace ((x =? 101) || (x =? 69)) with false by lia. replace (negb (x =? 46)) with true by lia. cbv zeta.
  unfold sscanf. rewrite numeric_dec by exact Hd. replace (dec_value (d :: ds) <? 4294967296) with false by lia. reflexivity.
Qed.

Lemma percent_alone e c k x r : ahead c (37 :: x :: r) -> (forall n, ~ hex_digit x n) ->
  exists c' k', settles e c k (TOk c' k') /\ k_tok k' = tINT_CONST /\ k_uint k' = k_uint k.
Proof.
  intros H Hx.
  assert (Hnx : is_hex x = false).
  { destruct (is_hex x) eqn:E; [exfalso|reflexivity]. unfold is_hex, is_digit in E.
    destruct ((48 <=? x) && (x <=? 57)) eqn:E1.
    - apply (Hx (x - 48)). replace x with (48 + (x - 48)) at 1 by lia. constructor. lia.
    - destruct ((65 <=? x) && (x <=? 70)) eqn:E2.
      + apply (Hx (x - 55)). replace x with (55 + (x - 55)) at 1 by lia. apply hd_upper. lia.
      + apply (Hx (x - 87)). replace x with (87 + (x - 87)) at 1 by lia. apply hd_lower. lia. }
  eexists _, _. split.
  - apply settles_at with 1%nat; [|discriminate].
    rewrite get_token_at, take_space_stop by (rewrite (ahead_ic _ _ _ H); reflexivity).
    unfold token_at. cbv zeta. rewrite (ahead_ic _ _ _ H).
    cbn [Z.eqb Pos.eqb is_alpha is_upper is_lower is_digit Z.leb Z.compare Pos.compare Pos.compare_cont orb andb].
    unfold hexadecimal. rewrite take_while_stop by (rewrite (ahead_ic _ _ _ (get_char_ahead _ _ _ _ H)); exact Hnx).
    reflexivity.
  - split; reflexivity.
Qed.

Lemma high_char e c k a x r :
  ahead c (literal [a] ++ x :: r) -> x <> 39 -> 128 <= a < 256 ->
  exists c' k', settles e c k (TOk c' k') /\ k_tok k' = tCHAR_CONST /\ k_uint k' = a + 4294967040.
Proof.
  intros H Hx Hl. unfold literal in H. cbn [app] in H. rewrite <- app_assoc in H. cbn [app] in H.
  assert (Ha : ahead (get_char c) (quoted [a] ++ 39 :: x :: r)) by (destruct (quoted [a]); cbn [app] in *; eapply get_char_ahead, H).
  destruct (string_body_ahead _ [a] (get_char c) [] 0 x r 2 (le_n _) Ha Hx ltac:(cbn; lia) ltac:(cbn; lia)) as (c' & E & H').
  eexists c', _. split.
  - apply settles_at with 2%nat; [|discriminate].
    rewrite get_string by (apply ahead_ic in H; exact H). unfold string_token. rewrite E. cbv zeta. reflexivity.
  - cbn. unfold char_value. replace (a <? 128) with false by lia. split; [reflexivity|].
    rewrite <- (Z.mod_add _ 1) by lia. rewrite Z.mod_small; lia.
Qed.

(** ** Only the symbols from the start of the search on *)

Lemma find_next_range t n s : forall last i, find_next t n s last = Some i -> (s <= i)%nat.
Proof.
  induction last as [|j IH]; intros i H; cbn [find_next] in H; [discriminate|].
  destruct (j <? s)%nat eqn:E; [discriminate|].
  destruct (nth_error t j) as [y|]; [|apply IH, H].
  destruct (y_name y) as [m|]; [|apply IH, H].
  destruct (strcasecmp m n =? 0); [injection H as <-; lia | apply IH, H].
Qed.

Lemma symbol_loop_range e n fr : forall fuel at_ k i,
  (forall j, at_ = Some j -> (symStart e <= j)%nat) ->
  k_ptr (snd (symbol_loop fuel e n fr at_ k)) = Some i -> (symStart e <= i)%nat.
Proof.
  induction fuel as [|fuel IH]; intros at_ k i Ha H; (destruct at_ as [j|]; cbn [symbol_loop] in H; [|discriminate H]);
    (destruct (nth_error (syms e) j) as [y|]; [|discriminate H]);
    (destruct (Bool.eqb fr (y_kind y =? sRECORD_OBJECT)); [cbn in H; injection H as <-; apply Ha; reflexivity|]).
  - discriminate H.
  - eapply IH; [|exact H]. intros j' E. eapply find_next_range, E.
Qed.

Lemma identifier_range e l n k i : k_ptr k = None -> k_ptr (identifier e l n k) = Some i -> (symStart e <= i)%nat.
Proof.
  intros Hk H. unfold identifier in H. cbv zeta in H.
  destruct (find_reserved (map_to_alias n)) as [[ty sub]|]; [cbn in H; congruence|].
  assert (R : forall fr k i, k_ptr (snd (symbol_token e (map_to_alias n) fr k)) = Some i -> (symStart e <= i)%nat).
  { intros fr k0 i0. unfold symbol_token. apply symbol_loop_range. intros j E. eapply find_next_range, E. }
  set (k1 := with_tok _ tIDENT) in H.
  pose proof (R ((l =? 46) || inWith e) k1 i) as R1.
  destruct (symbol_token e (map_to_alias n) ((l =? 46) || inWith e) k1) as [b k2]. cbn [snd] in R1.
  destruct b; [auto|]. destruct ((l =? 46) || inWith e); [eapply R, H | auto].
Qed.

Lemma exponent_ptr f c a k c' k' : exponent f c a k = TOk c' k' -> k_ptr k' = k_ptr k.
Proof.
  unfold exponent. destruct (if (ic (get_char c) =? 45) || (ic (get_char c) =? 43) then _ else _) as [a' c1].
  destruct (is_digit (ic c1)); [destruct (take_while f is_digit c1) as [[l c2]|]; [|discriminate]|];
  intro H; injection H as _ <-; reflexivity.
Qed.

Lemma real_ptr f c a k c' k' : real_number f c a k = TOk c' k' -> k_ptr k' = k_ptr k.
Proof.
  unfold real_number. destruct (take_while f is_digit c) as [[l c2]|]; [|discriminate].
  destruct ((ic c2 =? 101) || (ic c2 =? 69)); [intro H; apply exponent_ptr in H; exact H | intro H; injection H as _ <-; reflexivity].
Qed.

Lemma token_ptr : forall f e c k c' k' i, get_token f e c k = TOk c' k' -> k_ptr k' = Some i -> (symStart e <= i)%nat.
Proof.
  induction f as [|f IH]; intros e c k c' k' i H Hp; [discriminate|].
  rewrite get_token_at in H. destruct (take_while (S f) is_space c) as [[l c1]|]; [|discriminate].
  assert (Pl : k_ptr (plain k) = None) by reflexivity.
  unfold token_at in H. cbv zeta in H. set (k0 := plain k) in *. clearbody k0.
  assert (One : forall a t, TOk a (with_tok k0 t) = TOk c' k' -> (symStart e <= i)%nat).
  { intros a t E. injection E as _ <-. cbn in Hp. congruence. }
  destruct (is_alpha (ic c1) || (ic c1 =? 95)).
  { destruct (take_while (S f) _ c1) as [[nm c2]|]; [|discriminate]. injection H as _ <-. eapply identifier_range; eauto. }
  destruct (is_digit (ic c1)).
  { unfold unsigned_number in H. destruct (take_while (S f) is_digit c1) as [[ds c2]|]; [|discriminate].
    destruct ((ic c2 =? 101) || (ic c2 =? 69)); [apply exponent_ptr in H; congruence|].
    destruct (negb (ic c2 =? 46)).
    - destruct (sscanf 10 ds (k_uint k0)); [injection H as _ <-; cbn in Hp; congruence | discriminate].
    - cbv zeta in H. destruct (ic (peek_char c2) =? 46); [|apply real_ptr in H; congruence].
      destruct (sscanf 10 ds (k_uint k0)); [injection H as _ <-; cbn in Hp; congruence | discriminate]. }
  destruct (ic c1 =? 39).
  { unfold string_token in H. destruct (string_body (S f) (get_char c1) [] 0) as [[[[s n] b] c2]|]; [|discriminate].
    cbv zeta in H. destruct (i16 n =? 1), b; injection H as _ <-; cbn in Hp; congruence. }
  destruct (ic c1 =? 58); [destruct (ic (get_char c1) =? 61); eapply One, H|].
  destruct (ic c1 =? 46).
  { destruct (ic (get_char c1) =? 46); [eapply One, H|]. destruct (is_digit (ic (get_char c1))); [apply real_ptr in H; congruence | eapply One, H]. }
  destruct (ic c1 =? 60); [destruct (ic (get_char c1) =? 62), (ic (get_char c1) =? 61), (ic (get_char c1) =? 60); eapply One, H|].
  destruct (ic c1 =? 62); [destruct (ic (get_char c1) =? 60), (ic (get_char c1) =? 61), (ic (get_char c1) =? 62); eapply One, H|].
  destruct (ic c1 =? 123); [destruct (brace_comment (S f) c1); [eapply IH; eauto | discriminate]|].
  destruct (ic c1 =? 40).
  { destruct (ic (get_char c1) =? 42); [|eapply One, H]. destruct (star_comment (S f) 41 32 (get_char c1)); [eapply IH; eauto | discriminate]. }
  destruct (ic c1 =? 47).
  { destruct (ic (get_char c1) =? 47); [eapply IH; eauto|]. destruct (ic (get_char c1) =? 42); [|eapply One, H].
    destruct (star_comment (S f) 47 32 (get_char c1)); [eapply IH; eauto | discriminate]. }
  destruct (ic c1 =? 37).
  { unfold hexadecimal in H. destruct (take_while (S f) is_hex (get_char c1)) as [[ds c2]|]; [|discriminate].
    destruct (sscanf 16 (map to_upper ds) (k_uint k0)); [injection H as _ <-; cbn in Hp; congruence | discriminate]. }
  destruct (is_ascii (ic c1)); [eapply One, H|]. eapply IH; eauto.
Qed.

Lemma level_range e start c k f c' k' i : get_level_token f e start c k = TOk c' k' -> k_ptr k' = Some i -> (start <= i)%nat.
Proof. unfold get_level_token. intros H Hp. apply token_ptr with (i := i) in H; [exact H | exact Hp]. Qed.
