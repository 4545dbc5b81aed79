(** Fuel, layout, strings, special symbols. *)

From Coq Require Import ZArith Bool String List Lia ZifyBool Arith.
From Verif Require Import TokenModel TokenSpec TokenProofs.
Import ListNotations.
Open Scope Z_scope.

(** ** More fuel does not change a result *)

Lemma take_while_mono p : forall f c r, take_while f p c = Some r -> take_while (S f) p c = Some r.
Proof.
  induction f as [|f IH]; intros c r H.
  - cbn in H |- *. destruct (p (ic c)); [discriminate | exact H].
  - cbn in H. cbn [take_while]. destruct (p (ic c)); [|exact H].
    destruct (take_while f p (get_char c)) as [[l c']|] eqn:E; [|discriminate].
    apply IH in E. cbn [take_while] in E. rewrite E. exact H.
Qed.

Lemma string_chars_mono : forall f c r, string_chars f c = Some r -> string_chars (S f) c = Some r.
Proof.
  induction f as [|f IH]; intros c r H.
  - cbn in H |- *. destruct (ic c =? 39); [exact H|]. destruct (ic c =? 10); [exact H | discriminate].
  - cbn in H. cbn [string_chars]. destruct (ic c =? 39); [exact H|]. destruct (ic c =? 10); [exact H|].
    destruct (string_chars f (get_char c)) as [[[l b] c']|] eqn:E; [|discriminate].
    apply IH in E. cbn [string_chars] in E. rewrite E. exact H.
Qed.

Lemma string_body_mono : forall f c a n r, string_body f c a n = Some r -> string_body (S f) c a n = Some r.
Proof.
  induction f as [|f IH]; intros c a n r H; [discriminate|].
  cbn [string_body] in H. remember (S f) as g eqn:G. cbn [string_body].
  destruct (string_chars g c) as [[[l b] c']|] eqn:E; [|discriminate].
  rewrite (string_chars_mono _ _ _ E). destruct b; [exact H|].
  destruct (ic (get_char c') =? 39); [subst g; apply IH, H | exact H].
Qed.

Lemma brace_mono : forall f c r, brace_comment f c = Some r -> brace_comment (S f) c = Some r.
Proof.
  induction f as [|f IH]; intros c r H; [discriminate|].
  cbn [brace_comment] in H. remember (S f) as g eqn:G. cbn [brace_comment].
  destruct (ic (get_char c) =? 125); [exact H|]. subst g. apply IH, H.
Qed.

Lemma star_mono cl : forall f la c r, star_comment f cl la c = Some r -> star_comment (S f) cl la c = Some r.
Proof.
  induction f as [|f IH]; intros la c r H; [discriminate|].
  cbn [star_comment] in H. remember (S f) as g eqn:G. cbn [star_comment].
  destruct ((la =? 42) && (ic (get_char c) =? cl)); [exact H|]. subst g. apply IH, H.
Qed.

Lemma exponent_mono f c a k r : exponent f c a k = r -> r <> TFuel -> exponent (S f) c a k = r.
Proof.
  unfold exponent.
  destruct (if (ic (get_char c) =? 45) || (ic (get_char c) =? 43) then _ else _) as [a' c'].
  destruct (is_digit (ic c')); [|tauto].
  destruct (take_while f is_digit c') as [[l c1]|] eqn:E; [|congruence].
  rewrite (take_while_mono _ _ _ _ E). tauto.
Qed.

Lemma real_mono f c a k r : real_number f c a k = r -> r <> TFuel -> real_number (S f) c a k = r.
Proof.
  unfold real_number.
  destruct (take_while f is_digit c) as [[l c1]|] eqn:E; [|congruence].
  rewrite (take_while_mono _ _ _ _ E). destruct ((ic c1 =? 101) || (ic c1 =? 69)); [apply exponent_mono | tauto].
Qed.

Lemma unsigned_mono f c k r : unsigned_number f c k = r -> r <> TFuel -> unsigned_number (S f) c k = r.
Proof.
  unfold unsigned_number.
  destruct (take_while f is_digit c) as [[l c1]|] eqn:E; [|congruence].
  rewrite (take_while_mono _ _ _ _ E). destruct ((ic c1 =? 101) || (ic c1 =? 69)); [apply exponent_mono|].
  destruct (negb (ic c1 =? 46)); [tauto|]. cbv zeta. destruct (ic (peek_char c1) =? 46); [tauto | apply real_mono].
Qed.

Lemma hexa_mono f c k r : hexadecimal f c k = r -> r <> TFuel -> hexadecimal (S f) c k = r.
Proof.
  unfold hexadecimal.
  destruct (take_while f is_hex (get_char c)) as [[l c1]|] eqn:E; [|congruence].
  rewrite (take_while_mono _ _ _ _ E). tauto.
Qed.

Lemma string_token_mono f c k r : string_token f c k = r -> r <> TFuel -> string_token (S f) c k = r.
Proof.
  unfold string_token.
  destruct (string_body f (get_char c) [] 0) as [[[[s n] b] c1]|] eqn:E; [|congruence].
  rewrite (string_body_mono _ _ _ _ _ E). tauto.
Qed.

(** The part of [get_token] behind the blanks *)
Definition token_at (fuel f : nat) (e : symenv) (lastToken : Z) (c : cs) (k : tkn) : tres :=
  let x := ic c in
  let n := get_char c in
  let one t := TOk n (with_tok k t) in
  let two t := TOk (get_char n) (with_tok k t) in
  let again o := match o with Some c' => get_token f e c' k | None => TFuel end in
  if is_alpha x || (x =? 95) then
    match take_while fuel (fun a => is_alnum a || (a =? 95)) c with
    | Some (name, c') => TOk c' (identifier e lastToken name k)
    | None => TFuel
    end
  else if is_digit x then unsigned_number fuel c k
  else if x =? 39 then string_token fuel c k
  else if x =? 58 then if ic n =? 61 then two tASSIGN else one 58
  else if x =? 46 then
    if ic n =? 46 then two tSUBRANGE
    else if is_digit (ic n) then real_number fuel n [] k
    else one 46
  else if x =? 60 then
    if ic n =? 62 then two tNE else if ic n =? 61 then two tLE else if ic n =? 60 then two tSHL else one tLT
  else if x =? 62 then
    if ic n =? 60 then two tSYMDIFF else if ic n =? 61 then two tGE else if ic n =? 62 then two tSHR else one tGT
  else if x =? 123 then again (brace_comment fuel c)
  else if x =? 40 then
    if ic n =? 42 then again (star_comment fuel 41 32 n) else one 40
  else if x =? 47 then
    if ic n =? 47 then get_token f e (skip_line n) k
    else if ic n =? 42 then again (star_comment fuel 47 32 n)
    else one 47
  else if x =? 37 then hexadecimal fuel c k
  else if is_ascii x then one x
  else get_token f e n k.

Lemma get_token_at f e c k :
  get_token (S f) e c k =
  match take_while (S f) is_space c with
  | None => TFuel
  | Some (_, c') => token_at (S f) f e (k_tok k) c' (plain k)
  end.
Proof. reflexivity. Qed.

Lemma get_token_mono : forall f e c k r, get_token f e c k = r -> r <> TFuel -> get_token (S f) e c k = r.
Proof.
  induction f as [|f IH]; intros e c k r H Hr; [cbn in H; congruence|].
  rewrite get_token_at in H. rewrite get_token_at.
  destruct (take_while (S f) is_space c) as [[l c']|] eqn:E; [|congruence].
  rewrite (take_while_mono _ _ _ _ E). clear E.
  unfold token_at in *. cbv zeta in *. set (k0 := plain k) in *. clearbody k0.
  destruct (is_alpha (ic c') || (ic c' =? 95)).
  { destruct (take_while (S f) _ c') as [[nm c1]|] eqn:E; [|congruence]. rewrite (take_while_mono _ _ _ _ E). exact H. }
  destruct (is_digit (ic c')); [apply unsigned_mono; assumption|].
  destruct (ic c' =? 39); [apply string_token_mono; assumption|].
  destruct (ic c' =? 58); [exact H|].
  destruct (ic c' =? 46).
  { destruct (ic (get_char c') =? 46); [exact H|]. destruct (is_digit (ic (get_char c'))); [apply real_mono; assumption | exact H]. }
  destruct (ic c' =? 60); [exact H|].
  destruct (ic c' =? 62); [exact H|].
  destruct (ic c' =? 123).
  { destruct (brace_comment (S f) c') eqn:E; [|congruence]. rewrite (brace_mono _ _ _ E). apply IH; assumption. }
  destruct (ic c' =? 40).
  { destruct (ic (get_char c') =? 42); [|exact H].
    destruct (star_comment (S f) 41 32 (get_char c')) eqn:E; [|congruence]. rewrite (star_mono _ _ _ _ _ E). apply IH; assumption. }
  destruct (ic c' =? 47).
  { destruct (ic (get_char c') =? 47); [apply IH; assumption|].
    destruct (ic (get_char c') =? 42); [|exact H].
    destruct (star_comment (S f) 47 32 (get_char c')) eqn:E; [|congruence]. rewrite (star_mono _ _ _ _ _ E). apply IH; assumption. }
  destruct (ic c' =? 37); [apply hexa_mono; assumption|].
  destruct (is_ascii (ic c')); [exact H|]. apply IH; assumption.
Qed.

Lemma get_token_more f g e c k r : get_token f e c k = r -> r <> TFuel -> (f <= g)%nat -> get_token g e c k = r.
Proof. intros H Hr L. induction L; [exact H | apply get_token_mono; assumption]. Qed.

Lemma settles_at f e c k r : get_token f e c k = r -> r <> TFuel -> settles e c k r.
Proof. intros H Hr. exists f. intros g L. eapply get_token_more; eassumption. Qed.

Lemma settles_inv e c k r : settles e c k r -> exists f, get_token (S f) e c k = r.
Proof. intros [f0 H]. exists f0. apply H. lia. Qed.

Lemma settles_unique e c k r r' : settles e c k r -> settles e c k r' -> r = r'.
Proof.
  intros [f H] [g H']. rewrite <- (H (f + g)%nat) by lia. apply H'. lia.
Qed.

(** ** Layout *)

Lemma token_at_plain a b e l c k : token_at a b e l c (plain k) = token_at a b e l c (plain (plain k)).
Proof. rewrite plain_plain. reflexivity. Qed.

Lemma skip_blank e c k r : is_space (ic c) = true -> r <> TFuel ->
  settles e (get_char c) k r -> settles e c k r.
Proof.
  intros Hb Hr H. apply settles_inv in H. destruct H as [f H].
  apply settles_at with (S (S f)); [|exact Hr].
  pose proof H as H2. apply get_token_mono in H2; [|exact Hr].
  rewrite get_token_at in H, H2. rewrite get_token_at.
  destruct (take_while (S f) is_space (get_char c)) as [[l c']|] eqn:E; [|congruence].
  rewrite (take_while_mono _ _ _ _ E) in H2.
  remember (S f) as g. cbn [take_while]. rewrite Hb, E. exact H2.
Qed.

Lemma brace_ahead s : forall c a x r fuel, ahead c (a :: s ++ 125 :: x :: r) -> ~ In 125 s -> (List.length s < fuel)%nat ->
  exists c', brace_comment fuel c = Some c' /\ ahead c' (x :: r).
Proof.
  induction s as [|b s IH]; intros c a x r fuel H Hn Hf; (destruct fuel as [|fuel]; [cbn in Hf; lia|]); cbn [brace_comment].
  - cbn in H. apply get_char_ahead in H. rewrite (ahead_ic _ _ _ H). cbn [Z.eqb Pos.eqb].
    eexists. split; [reflexivity|]. eapply get_char_ahead, H.
  - cbn in H, Hf. apply get_char_ahead in H. rewrite (ahead_ic _ _ _ H).
    replace (b =? 125) with false by (cbn in Hn; lia).
    eapply IH; [exact H | cbn in Hn; tauto | lia].
Qed.

Lemma star_ahead cl (Hcl : cl <> 42) s : forall c a la x r fuel, ahead c (a :: s ++ 42 :: cl :: x :: r) ->
  without 42 cl (la :: s ++ [42]) -> (S (List.length s) < fuel)%nat ->
  exists c', star_comment fuel cl la c = Some c' /\ ahead c' (x :: r).
Proof.
  induction s as [|b s IH]; intros c a la x r fuel H Hw Hf; (destruct fuel as [|fuel]; [cbn in Hf; lia|]); cbn [star_comment].
  - cbn in H. apply get_char_ahead in H. rewrite (ahead_ic _ _ _ H).
    replace ((la =? 42) && (42 =? cl)) with false by lia.
    destruct fuel as [|fuel]; [cbn in Hf; lia|]. cbn [star_comment].
    apply get_char_ahead in H. rewrite (ahead_ic _ _ _ H).
    replace ((42 =? 42) && (cl =? cl)) with true by lia.
    eexists. split; [reflexivity|]. eapply get_char_ahead, H.
  - cbn in H, Hf. apply get_char_ahead in H. rewrite (ahead_ic _ _ _ H).
    cbn in Hw. destruct Hw as [H1 H2].
    replace ((la =? 42) && (b =? cl)) with false by lia.
    eapply IH; [exact H | exact H2 | lia].
Qed.

Lemma take_space_stop f c : is_space (ic c) = false -> take_while f is_space c = Some ([], c).
Proof. apply take_while_stop. Qed.

Lemma layout_skipped e c l x r : layout l -> ahead c (l ++ x :: r) ->
  exists c', ahead c' (x :: r) /\ forall k res, res <> TFuel -> settles e c' k res -> settles e c k res.
Proof.
  intros L H. destruct L as [b Hb | s Hs | s Hs | s Hs].
  - cbn in H. exists (get_char c). split; [eapply get_char_ahead, H|].
    intros k res Hr Hset. apply skip_blank; [|exact Hr|exact Hset].
    rewrite (ahead_ic _ _ _ H). unfold blank, is_space in *. lia.
  - cbn in H. rewrite <- app_assoc in H. cbn in H.
    destruct (brace_ahead s c 123 x r (S (List.length s)) H Hs ltac:(lia)) as (c' & E & H').
    exists c'. split; [exact H'|]. intros k res Hr Hset. apply settles_inv in Hset. destruct Hset as [f Hf].
    apply settles_at with (S (S f + S (List.length s)))%nat; [|exact Hr].
    rewrite get_token_at. rewrite take_space_stop by (rewrite (ahead_ic _ _ _ H); reflexivity).
    unfold token_at. cbv zeta. rewrite (ahead_ic _ _ _ H). cbn [Z.eqb Pos.eqb is_alpha is_upper is_lower is_digit Z.leb Z.compare Pos.compare Pos.compare_cont orb andb].
    assert (E' : brace_comment (S (S f + S (List.length s))) c = Some c').
    { destruct (brace_ahead s c 123 x r (S (S f + S (List.length s))) H Hs ltac:(lia)) as (c2 & E2 & _).
      assert (M : forall n m c a, brace_comment n c = Some a -> (n <= m)%nat -> brace_comment m c = Some a)
        by (intros n m cc a Ha Hm; induction Hm; [exact Ha | apply brace_mono; assumption]).
      eapply M; [exact E | lia]. }
    rewrite E'. rewrite get_token_plain. apply get_token_more with (S f); [exact Hf | exact Hr | lia].
  - cbn in H. rewrite <- app_assoc in H. cbn in H.
    pose proof (get_char_ahead _ _ _ _ H) as H1.
    destruct (star_ahead 41 ltac:(lia) s (get_char c) 42 32 x r (S (S (List.length s))) H1
                ltac:(destruct s; cbn in *; (split; [lia|]); try exact Hs; auto) ltac:(lia)) as (c' & E & H').
    exists c'. split; [exact H'|]. intros k res Hr Hset. apply settles_inv in Hset. destruct Hset as [f Hf].
    apply settles_at with (S (S f + S (S (List.length s))))%nat; [|exact Hr].
    rewrite get_token_at. rewrite take_space_stop by (rewrite (ahead_ic _ _ _ H); reflexivity).
    unfold token_at. cbv zeta. rewrite (ahead_ic _ _ _ H), (ahead_ic _ _ _ H1). cbn [Z.eqb Pos.eqb is_alpha is_upper is_lower is_digit Z.leb Z.compare Pos.compare Pos.compare_cont orb andb].
    assert (M : forall n m cl la c a, star_comment n cl la c = Some a -> (n <= m)%nat -> star_comment m cl la c = Some a)
      by (intros n m cl la cc a Ha Hm; induction Hm; [exact Ha | apply star_mono; assumption]).
    rewrite (M _ (S (S f + S (S (List.length s)))) _ _ _ _ E) by lia.
    rewrite get_token_plain. apply get_token_more with (S f); [exact Hf | exact Hr | lia].
  - cbn in H. rewrite <- app_assoc in H. cbn in H.
    pose proof (get_char_ahead _ _ _ _ H) as H1.
    destruct (star_ahead 47 ltac:(lia) s (get_char c) 42 32 x r (S (S (List.length s))) H1
                ltac:(destruct s; cbn in *; (split; [lia|]); try exact Hs; auto) ltac:(lia)) as (c' & E & H').
    exists c'. split; [exact H'|]. intros k res Hr Hset. apply settles_inv in Hset. destruct Hset as [f Hf].
    apply settles_at with (S (S f + S (S (List.length s))))%nat; [|exact Hr].
    rewrite get_token_at. rewrite take_space_stop by (rewrite (ahead_ic _ _ _ H); reflexivity).
    unfold token_at. cbv zeta. rewrite (ahead_ic _ _ _ H), (ahead_ic _ _ _ H1). cbn [Z.eqb Pos.eqb is_alpha is_upper is_lower is_digit Z.leb Z.compare Pos.compare Pos.compare_cont orb andb].
    assert (M : forall n m cl la c a, star_comment n cl la c = Some a -> (n <= m)%nat -> star_comment m cl la c = Some a)
      by (intros n m cl la cc a Ha Hm; induction Hm; [exact Ha | apply star_mono; assumption]).
    rewrite (M _ (S (S f + S (S (List.length s)))) _ _ _ _ E) by lia.
    rewrite get_token_plain. apply get_token_more with (S f); [exact Hf | exact Hr | lia].
Qed.

(** Any number of them *)
Lemma layouts_skipped e ls : Forall layout ls -> forall c x r, ahead c (concat ls ++ x :: r) ->
  exists c', ahead c' (x :: r) /\ forall k res, res <> TFuel -> settles e c' k res -> settles e c k res.
Proof.
  induction 1 as [|l ls L _ IH]; intros c x r H.
  - exists c. split; [exact H | tauto].
  - cbn in H. rewrite <- app_assoc in H.
    assert (exists y r', concat ls ++ x :: r = y :: r') as (y & r' & E) by (destruct (concat ls); cbn; eauto).
    rewrite E in H. destruct (layout_skipped e c l y r' L H) as (c1 & H1 & S1).
    rewrite <- E in H1. destruct (IH c1 x r H1) as (c2 & H2 & S2).
    exists c2. split; [exact H2|]. intros k res Hr Hs. apply S1, S2; assumption.
Qed.

(** ** Strings *)

Lemma string_chars_ahead l : forall c y r fuel, ahead c (l ++ 39 :: y :: r) -> ~ In 39 l -> ~ In 10 l -> (List.length l <= fuel)%nat ->
  exists c', string_chars fuel c = Some (l, false, c') /\ ahead c' (39 :: y :: r).
Proof.
  induction l as [|a l IH]; intros c y r fuel H H39 H10 Hf.
  - cbn in H. exists c. split; [|exact H]. apply ahead_ic in H. destruct fuel; cbn; rewrite H; reflexivity.
  - cbn in H39, H10, Hf. destruct fuel as [|fuel]; [lia|].
    assert (Hic : ic c = a) by (apply ahead_ic in H; exact H).
    assert (H1 : ahead (get_char c) (l ++ 39 :: y :: r)).
    { destruct l; cbn in *; eapply get_char_ahead, H. }
    destruct (IH _ _ _ fuel H1 ltac:(tauto) ltac:(tauto) ltac:(lia)) as (c' & E & H').
    exists c'. split; [|exact H']. cbn [string_chars]. rewrite Hic.
    replace (a =? 39) with false by lia. replace (a =? 10) with false by lia. rewrite E. reflexivity.
Qed.

Lemma split_quote s : (~ In 39 s) \/ exists l s', s = l ++ 39 :: s' /\ ~ In 39 l.
Proof.
  induction s as [|a s IH]; [left; tauto|].
  destruct (Z.eq_dec a 39) as [-> | N].
  - right. exists [], s. split; [reflexivity | tauto].
  - destruct IH as [IH | (l & s' & -> & Hl)].
    + left. cbn. intros [?|?]; [congruence | tauto].
    + right. exists (a :: l), s'. split; [reflexivity|]. cbn. intros [?|?]; [congruence | tauto].
Qed.

Lemma quoted_plain l : ~ In 39 l -> quoted l = l.
Proof.
  unfold quoted. induction l as [|a l IH]; [reflexivity|]. cbn. intro H.
  replace (a =? 39) with false by lia. cbn. f_equal. apply IH. tauto.
Qed.

Lemma quoted_app a b : quoted (a ++ b) = quoted a ++ quoted b.
Proof. apply flat_map_app. Qed.

Lemma string_body_ahead : forall n s c acc m x r fuel, (List.length s <= n)%nat ->
  ahead c (quoted s ++ 39 :: x :: r) -> x <> 39 -> ~ In 10 s -> (List.length s < fuel)%nat ->
  exists c', string_body fuel c acc m = Some (acc ++ s, m + Z.of_nat (List.length s), false, c') /\ ahead c' (x :: r).
Proof.
  induction n as [|n IH]; intros s c acc m x r fuel Hn H Hx H10 Hf; destruct fuel as [|fuel]; try lia.
  - destruct s; [|cbn in Hn; lia]. cbn in H.
    destruct (string_chars_ahead [] c x r (S fuel) H ltac:(tauto) ltac:(tauto) ltac:(cbn; lia)) as (c1 & E & H1).
    exists (get_char c1). pose proof (get_char_ahead _ _ _ _ H1) as H2. split; [|exact H2].
    remember (S fuel) as g. rewrite Heqg. cbn [string_body]. rewrite <- Heqg, E. rewrite (ahead_ic _ _ _ H2).
    replace (x =? 39) with false by lia. reflexivity.
  - destruct (split_quote s) as [Hs | (l & s' & -> & Hl)].
    + rewrite quoted_plain in H by exact Hs.
      destruct (string_chars_ahead s c x r (S fuel) H Hs H10 ltac:(lia)) as (c1 & E & H1).
      exists (get_char c1). pose proof (get_char_ahead _ _ _ _ H1) as H2. split; [|exact H2].
      remember (S fuel) as g. rewrite Heqg. cbn [string_body]. rewrite <- Heqg, E. rewrite (ahead_ic _ _ _ H2).
      replace (x =? 39) with false by lia. reflexivity.
    + rewrite quoted_app, (quoted_plain l Hl) in H. change (39 :: s') with ([39] ++ s') in H. rewrite quoted_app in H.
      rewrite app_length in Hn, Hf. cbn [List.length] in Hn, Hf.
      rewrite <- !app_assoc in H. change (quoted [39]) with [39; 39] in H. cbn [app] in H.
      destruct (string_chars_ahead l c 39 _ (S fuel) H Hl ltac:(intro; apply H10, in_or_app; tauto) ltac:(lia)) as (c1 & E & H1).
      pose proof (get_char_ahead _ _ _ _ H1) as H2.
      assert (H3 : ahead (get_char (get_char c1)) (quoted s' ++ 39 :: x :: r)).
      { destruct (quoted s'); cbn in *; eapply get_char_ahead, H2. }
      destruct (IH s' _ (acc ++ l ++ [39]) (m + Z.of_nat (List.length l) + 1) x r fuel ltac:(lia) H3 Hx
                 ltac:(intro; apply H10, in_or_app; right; right; assumption) ltac:(lia)) as (c' & E' & H').
      exists c'. split; [|exact H'].
      remember (S fuel) as g. rewrite Heqg. cbn [string_body]. rewrite <- Heqg, E. rewrite (ahead_ic _ _ _ H2).
      cbn [Z.eqb Pos.eqb]. rewrite E'. rewrite <- !app_assoc, app_length. cbn [List.length app].
      replace (m + Z.of_nat (List.length l) + 1 + Z.of_nat (List.length s')) with (m + Z.of_nat (List.length l + S (List.length s'))) by lia.
      reflexivity.
Qed.

Lemma get_string f e c k : ic c = 39 -> get_token (S f) e c k = string_token (S f) c (plain k).
Proof.
  intro H. rewrite get_token_at, take_space_stop by (rewrite H; reflexivity).
  unfold token_at. cbv zeta. rewrite H. reflexivity.
Qed.

Lemma string_literal e c k s x r :
  ahead c (literal s ++ x :: r) -> x <> 39 -> ~ In 10 s -> Z.of_nat (List.length s) < 65537 -> List.length s <> 1%nat ->
  exists c' k', settles e c k (TOk c' k') /\ ahead c' (x :: r) /\ k_tok k' = tSTRING_CONST /\ k_str k' = s /\ k_errs k' = k_errs k.
Proof.
  intros H Hx H10 Hl H1. unfold literal in H. cbn in H. rewrite <- app_assoc in H. cbn in H.
  assert (Ha : ahead (get_char c) (quoted s ++ 39 :: x :: r)) by (destruct (quoted s); cbn in *; eapply get_char_ahead, H).
  destruct (string_body_ahead _ s (get_char c) [] 0 x r (S (List.length s)) (le_n _) Ha Hx H10 ltac:(lia)) as (c' & E & H').
  exists c', (with_str (with_tok (plain k) tSTRING_CONST) s). split; [|repeat split; exact H'].
  apply settles_at with (S (List.length s)); [|discriminate].
  rewrite get_string by (apply ahead_ic in H; exact H). unfold string_token. rewrite E. cbv zeta.
  rewrite Z.add_0_l. replace (i16 (Z.of_nat (List.length s)) =? 1) with false; [reflexivity|].
  unfold i16. pose proof (Z.mod_eq (Z.of_nat (List.length s) + 32768) 65536 ltac:(lia)).
  pose proof (Z.mod_pos_bound (Z.of_nat (List.length s) + 32768) 65536 ltac:(lia)). lia.
Qed.

Lemma char_literal e c k a x r :
  ahead c (literal [a] ++ x :: r) -> x <> 39 -> a <> 10 -> 0 <= a < 128 ->
  exists c' k', settles e c k (TOk c' k') /\ ahead c' (x :: r) /\ k_tok k' = tCHAR_CONST /\ k_uint k' = a /\ k_errs k' = k_errs k.
Proof.
  intros H Hx H10 Hl. unfold literal in H. cbn [app] in H. rewrite <- app_assoc in H. cbn [app] in H.
  assert (Ha : ahead (get_char c) (quoted [a] ++ 39 :: x :: r)) by (destruct (quoted [a]); cbn [app] in *; eapply get_char_ahead, H).
  destruct (string_body_ahead _ [a] (get_char c) [] 0 x r 2 (le_n _) Ha Hx ltac:(cbn; lia) ltac:(cbn; lia)) as (c' & E & H').
  eexists c', _. split; [|split; [exact H'|]].
  - apply settles_at with 2%nat; [|discriminate].
    rewrite get_string by (apply ahead_ic in H; exact H). unfold string_token. rewrite E. cbv zeta. reflexivity.
  - cbn. unfold char_value. replace (a <? 128) with true by lia. auto.
Qed.

(** The line ends inside of the string *)
Lemma string_chars_open l : forall c r fuel, ahead c (l ++ 10 :: r) -> ~ In 39 l -> ~ In 10 l -> (List.length l <= fuel)%nat ->
  exists c', string_chars fuel c = Some (l, true, c') /\ ahead c' (10 :: r).
Proof.
  induction l as [|a l IH]; intros c r fuel H H39 H10 Hf.
  - cbn in H. exists c. split; [|exact H]. apply ahead_ic in H. destruct fuel; cbn; rewrite H; reflexivity.
  - cbn in H39, H10, Hf. destruct fuel as [|fuel]; [lia|].
    assert (Hic : ic c = a) by (apply ahead_ic in H; exact H).
    assert (H1 : ahead (get_char c) (l ++ 10 :: r)) by (destruct l; cbn in *; eapply get_char_ahead, H).
    destruct (IH _ _ fuel H1 ltac:(tauto) ltac:(tauto) ltac:(lia)) as (c' & E & H').
    exists c'. split; [|exact H']. cbn [string_chars]. rewrite Hic.
    replace (a =? 39) with false by lia. replace (a =? 10) with false by lia. rewrite E. reflexivity.
Qed.

Lemma string_open e c k l r :
  ahead c (39 :: l ++ 10 :: r) -> ~ In 39 l -> ~ In 10 l ->
  exists c' k', settles e c k (TOk c' k') /\ k_errs k' = k_errs k ++ [eNOSQUOTE].
Proof.
  intros H H39 H10.
  assert (Ha : ahead (get_char c) (l ++ 10 :: r)) by (destruct l; cbn in *; eapply get_char_ahead, H).
  destruct (string_chars_open l _ r (S (List.length l)) Ha H39 H10 ltac:(lia)) as (c1 & E & H1).
  assert (Eb : string_body (S (List.length l)) (get_char c) [] 0 = Some ([], 0 + Z.of_nat (List.length l), true, get_char c1)).
  { remember (S (List.length l)) as g. rewrite Heqg at 1. cbn [string_body]. rewrite <- Heqg, E. reflexivity. }
  destruct (i16 (0 + Z.of_nat (List.length l)) =? 1) eqn:E1; eexists _, _;
    (split; [apply settles_at with (S (List.length l)); [|discriminate];
             rewrite get_string by (apply ahead_ic in H; exact H); unfold string_token; rewrite Eb; cbv zeta; rewrite E1; reflexivity
            | reflexivity]).
Qed.

(** ** Hexadecimal numbers, written with % *)

Lemma hex_char c n : hex_digit c n -> is_hex c = true /\ digit_value (to_upper c) = n.
Proof.
  unfold is_hex, digit_value, to_upper, is_digit, is_upper, is_lower. intros [m H|m H|m H].
  - split; [lia|]. replace ((97 <=? 48 + m) && (48 + m <=? 122)) with false by lia.
    replace ((48 <=? 48 + m) && (48 + m <=? 57)) with true by lia. lia.
  - split; [lia|]. replace ((97 <=? 55 + m) && (55 + m <=? 122)) with false by lia.
    replace ((48 <=? 55 + m) && (55 + m <=? 57)) with false by lia. replace ((65 <=? 55 + m) && (55 + m <=? 90)) with true by lia. lia.
  - split; [lia|]. replace ((97 <=? 87 + m) && (87 + m <=? 122)) with true by lia.
    replace ((48 <=? 87 + m - 32) && (87 + m - 32 <=? 57)) with false by lia. replace ((65 <=? 87 + m - 32) && (87 + m - 32 <=? 90)) with true by lia. lia.
Qed.

Lemma hex_value ds ns : Forall2 hex_digit ds ns -> Forall (fun a => is_hex a = true) ds /\ numeric_value 16 (map to_upper ds) = value_in 16 ns.
Proof.
  intro H. split; [induction H; constructor; auto; eapply hex_char; eauto|].
  unfold numeric_value, value_in. generalize 0. induction H as [|d n ds ns Hd _ IH]; intro v; [reflexivity|].
  cbn [map fold_left]. rewrite IH. f_equal. rewrite (proj2 (hex_char _ _ Hd)). lia.
Qed.

Lemma hexadecimal_literal e c k ds ns x r :
  ahead c (37 :: ds ++ x :: r) -> ds <> [] -> Forall2 hex_digit ds ns -> value_in 16 ns < 4294967296 ->
  (forall n, ~ hex_digit x n) ->
  exists c' k', settles e c k (TOk c' k') /\ ahead c' (x :: r) /\
    k_tok k' = tINT_CONST /\ k_uint k' = value_in 16 ns /\ k_errs k' = k_errs k.
Proof.
  intros H Hne Hd Hv Hx.
  destruct (hex_value _ _ Hd) as [Hall Hval].
  assert (Hnx : is_hex x = false).
  { destruct (is_hex x) eqn:E; [exfalso|reflexivity]. unfold is_hex, is_digit in E.
    destruct ((48 <=? x) && (x <=? 57)) eqn:E1.
    - apply (Hx (x - 48)). replace x with (48 + (x - 48)) at 1 by lia. constructor. lia.
    - destruct ((65 <=? x) && (x <=? 70)) eqn:E2.
      + apply (Hx (x - 55)). replace x with (55 + (x - 55)) at 1 by lia. apply hd_upper. lia.
      + apply (Hx (x - 87)). replace x with (87 + (x - 87)) at 1 by lia. apply hd_lower. lia. }
  assert (Ha : ahead (get_char c) (ds ++ x :: r)) by (destruct ds; cbn in *; eapply get_char_ahead, H).
  destruct (take_while_ahead is_hex ds (S (List.length ds)) _ x r Ha Hall Hnx ltac:(lia)) as (c1 & E & H1).
  eexists c1, _. split; [|split; [exact H1|]].
  - apply settles_at with (S (List.length ds)); [|discriminate].
    rewrite get_token_at, take_space_stop by (rewrite (ahead_ic _ _ _ H); reflexivity).
    unfold token_at. cbv zeta. rewrite (ahead_ic _ _ _ H).
    cbn [Z.eqb Pos.eqb is_alpha is_upper is_lower is_digit Z.leb Z.compare Pos.compare Pos.compare_cont orb andb].
    unfold hexadecimal. rewrite E. unfold sscanf.
    destruct ds as [|d ds']; [contradiction|]. cbn [map]. change (to_upper d :: map to_upper ds') with (map to_upper (d :: ds')).
    rewrite Hval. replace (value_in 16 ns <? 4294967296) with true by lia. reflexivity.
  - cbn. auto.
Qed.

(** ** Special symbols *)

Ltac spec_case Hic Hn :=
  unfold token_at; cbv zeta; rewrite ?Hic, ?Hn;
  cbn [Z.eqb Pos.eqb is_alpha is_upper is_lower is_digit is_ascii Z.leb Z.compare Pos.compare Pos.compare_cont orb andb].

Lemma special e c k p t x r :
  ahead c (p ++ x :: r) -> longest p t (p ++ x :: r) ->
  ~ (p = [40] /\ x = 42) -> ~ (p = [47] /\ (x = 42 \/ x = 47)) -> ~ (p = [46] /\ dec_digit x) ->
  exists c' k', settles e c k (TOk c' k') /\ ahead c' (x :: r) /\ k_tok k' = t /\ k_errs k' = k_errs k.
Proof.
  intros H (Hin & _ & Hmax) N1 N2 N3.
  assert (Two : forall a b u, In ([a; b], u) specials -> p = [a] -> x <> b).
  { intros a b u Hi -> ->. specialize (Hmax [a; b] u Hi). cbn in Hmax. rewrite !Z.eqb_refl in Hmax. specialize (Hmax eq_refl). lia. }
  assert (Two' : forall a b, existsb (fun q => match fst q with [u; v] => (u =? a) && (v =? b) | _ => false end) specials = true -> p = [a] -> x <> b).
  { intros a b Hb. apply existsb_exists in Hb. destruct Hb as ([[|u [|v [|w q]]] z] & Hi & Hb); try discriminate Hb.
    cbn in Hb. assert (u = a) by lia. assert (v = b) by lia. subst. eapply Two, Hi. }
  clear Two.
  assert (G : forall c' k', ahead c' (x :: r) /\ k_tok k' = t /\ k_errs k' = k_errs k ->
            get_token 1 e c k = TOk c' k' -> exists c' k', settles e c k (TOk c' k') /\ ahead c' (x :: r) /\ k_tok k' = t /\ k_errs k' = k_errs k).
  { intros c' k' Hc Hg. exists c', k'. split; [|exact Hc]. eapply settles_at; [exact Hg | discriminate]. }
  assert (Hs : is_space (ic c) = false -> get_token 1 e c k = token_at 1 0 e (k_tok k) c (plain k)).
  { intro Hs. rewrite get_token_at, take_space_stop by exact Hs. reflexivity. }
  cbn in Hin.
  repeat (destruct Hin as [Hin | Hin]; [injection Hin as <- <- | ]); [..|contradiction];
    cbn in H; pose proof (ahead_ic _ _ _ H) as Hic; rewrite Hic in Hs; specialize (Hs eq_refl);
    pose proof (get_char_ahead _ _ _ _ H) as H1; pose proof (ahead_ic _ _ _ H1) as Hn;
    try (pose proof (get_char_ahead _ _ _ _ H1) as H2);
    (eapply G;
      [ | rewrite Hs; spec_case Hic Hn;
          repeat match goal with
          | |- context [x =? ?b] =>
              replace (x =? b) with false
                by (symmetry; apply Z.eqb_neq; first
                     [ intro; subst x; apply N1; auto; fail
                     | intro; subst x; apply N2; auto; fail
                     | eapply Two'; [|reflexivity]; vm_compute; reflexivity ])
          | |- context [is_digit x] =>
              replace (is_digit x) with false by (destruct (is_digit x) eqn:E; [exfalso; apply N3; split; [reflexivity | apply is_digit_dec, E] | reflexivity])
          end; reflexivity ]);
    (split; [first [exact H2 | exact H1] | split; reflexivity]).
Qed.
