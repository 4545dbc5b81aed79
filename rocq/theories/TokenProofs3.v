(** Words, symbols, line comments, termination. *)

From Coq Require Import ZArith Bool String List Lia ZifyBool Arith.
From Verif Require Import TokenModel TokenSpec TokenProofs TokenProofs2.
Import ListNotations.
Open Scope Z_scope.

(** ** Comparing names *)

Lemma same_letter_lower a b : same_letter a b <-> to_lower a = to_lower b.
Proof.
  unfold same_letter, to_lower, is_upper.
  destruct ((65 <=? a) && (a <=? 90)) eqn:A; destruct ((65 <=? b) && (b <=? 90)) eqn:B; lia.
Qed.

Lemma same_name_lower a b : same_name a b <-> map to_lower a = map to_lower b.
Proof.
  unfold same_name. split.
  - induction 1 as [|x y a b H _ IH]; [reflexivity|]. cbn. apply same_letter_lower in H. congruence.
  - revert b. induction a as [|x a IH]; intros [|y b] H; try discriminate; constructor.
    + apply same_letter_lower. injection H. auto.
    + apply IH. injection H. auto.
Qed.

Lemma same_name_sym a b : same_name a b -> same_name b a.
Proof. rewrite !same_name_lower. auto. Qed.

Lemma same_name_trans a b c : same_name a b -> same_name b c -> same_name a c.
Proof. rewrite !same_name_lower. congruence. Qed.

Lemma to_lower_nz x : x <> 0 -> to_lower x <> 0.
Proof. unfold to_lower, is_upper. destruct ((65 <=? x) && (x <=? 90)) eqn:E; lia. Qed.

Lemma strcase_zero a : forall b, cname a -> cname b -> (strcasecmp a b = 0 <-> same_name a b).
Proof.
  intros b Ha Hb. rewrite same_name_lower. revert b Ha Hb. unfold cname.
  induction a as [|x a IH]; intros [|y b] Ha Hb; cbn in *.
  - tauto.
  - pose proof (to_lower_nz y ltac:(lia)). split; [lia | discriminate].
  - pose proof (to_lower_nz x ltac:(lia)). split; [lia | discriminate].
  - destruct (to_lower x =? to_lower y) eqn:E.
    + rewrite IH by tauto. apply Z.eqb_eq in E. split; [congruence | intro H; injection H; auto].
    + split; [lia | intro H; injection H; lia].
Qed.

Lemma strcase_lower a : forall b b', map to_lower b = map to_lower b' -> strcasecmp a b = strcasecmp a b'.
Proof.
  induction a as [|x a IH]; intros [|y b] [|y' b'] H; try discriminate; cbn in *; try reflexivity.
  - congruence.
  - injection H as H1 H2. rewrite H1, (IH b b' H2). reflexivity.
Qed.

(** ** The tables *)

Definition no_nul (n : list Z) : bool := forallb (fun c => negb (c =? 0)) n.

Lemma no_nul_cname n : no_nul n = true -> cname n.
Proof. unfold no_nul, cname. rewrite forallb_forall. intros H I. apply H in I. lia. Qed.

(** Every entry is smaller than all later ones *)
Fixpoint ascending (l : list (list Z)) : bool :=
  match l with
  | [] => true
  | a :: t => forallb (fun b => strcasecmp a b <? 0) t && ascending t
  end.

Lemma rsw_ascending : ascending (map (fun e => fst (fst e)) rsw) = true.
Proof. vm_compute. reflexivity. Qed.

Lemma aliases_ascending : ascending (map fst aliases) = true.
Proof. vm_compute. reflexivity. Qed.

Lemma rsw_nonul : forallb (fun e => no_nul (fst (fst e))) rsw = true.
Proof. vm_compute. reflexivity. Qed.

Lemma aliases_nonul : forallb (fun e => no_nul (fst e) && no_nul (snd e)) aliases = true.
Proof. vm_compute. reflexivity. Qed.

Lemma reserved_in_spec t name : ascending (map (fun e => fst (fst e)) t) = true ->
  Forall (fun e => cname (fst (fst e))) t -> cname name ->
  match reserved_in t name with
  | Some (ty, sub) => exists n, In (n, ty, sub) t /\ same_name n name
  | None => forall n ty sub, In (n, ty, sub) t -> ~ same_name n name
  end.
Proof.
  intros Ha Hc Hn. induction t as [|[[w ty] sub] t IH]; [cbn; tauto|].
  cbn in Ha. apply andb_prop in Ha. destruct Ha as [Hlt Ha]. inversion_clear Hc as [|? ? Hw Hc']. cbn in Hw.
  cbn. destruct (strcasecmp w name =? 0) eqn:E0.
  - exists w. split; [tauto|]. apply strcase_zero; [assumption..|lia].
  - assert (Nw : ~ same_name w name) by (rewrite <- strcase_zero by assumption; lia).
    destruct (0 <? strcasecmp w name) eqn:E1.
    + intros n ty' sub' [I|I]; [injection I as <- <- <-; exact Nw|]. intro Hs.
      rewrite forallb_forall in Hlt. specialize (Hlt n (in_map (fun e => fst (fst e)) _ _ I)).
      apply same_name_lower in Hs. rewrite (strcase_lower w n name Hs) in Hlt. lia.
    + specialize (IH Ha Hc'). destruct (reserved_in t name) as [[ty' sub']|].
      * destruct IH as (n & I & Hs). exists n. tauto.
      * intros n ty' sub' [I|I]; [injection I as <- <- <-; exact Nw | eapply IH, I].
Qed.

Lemma alias_in_spec t name : ascending (map fst t) = true ->
  Forall (fun e => cname (fst e)) t -> cname name ->
  (exists a, In (a, alias_in t name) t /\ same_name a name) \/
  (alias_in t name = name /\ forall a n, In (a, n) t -> ~ same_name a name).
Proof.
  intros Ha Hc Hn. induction t as [|[w r] t IH]; [right; cbn; tauto|].
  cbn in Ha. apply andb_prop in Ha. destruct Ha as [Hlt Ha]. inversion_clear Hc as [|? ? Hw Hc']. cbn in Hw.
  cbn. destruct (strcasecmp w name =? 0) eqn:E0.
  - left. exists w. split; [tauto|]. apply strcase_zero; [assumption..|lia].
  - assert (Nw : ~ same_name w name) by (rewrite <- strcase_zero by assumption; lia).
    destruct (0 <? strcasecmp w name) eqn:E1.
    + right. split; [reflexivity|]. intros a n [I|I]; [injection I as <- <-; exact Nw|]. intro Hs.
      rewrite forallb_forall in Hlt. specialize (Hlt a (in_map fst _ _ I)).
      apply same_name_lower in Hs. rewrite (strcase_lower w a name Hs) in Hlt. lia.
    + specialize (IH Ha Hc'). destruct IH as [(a & I & Hs) | [E IH]].
      * left. exists a. tauto.
      * right. split; [exact E|]. intros a n [I|I]; [injection I as <- <-; exact Nw | eapply IH, I].
Qed.

Lemma ascending_inj l : ascending l = true -> forall i j a b, nth_error l i = Some a -> nth_error l j = Some b ->
  Forall cname l -> same_name a b -> i = j.
Proof.
  induction l as [|x l IH]; intros Ha i j a b Hi Hj Hc Hs; [destruct i; discriminate|].
  cbn in Ha. apply andb_prop in Ha. destruct Ha as [Hlt Ha]. rewrite forallb_forall in Hlt.
  inversion_clear Hc as [|? ? Hx Hc']. pose proof (proj1 (Forall_forall _ _) Hc') as Hall.
  destruct i as [|i], j as [|j]; cbn in Hi, Hj; [reflexivity|..].
  - injection Hi as ->. apply nth_error_In in Hj. specialize (Hlt b Hj).
    apply strcase_zero in Hs; [lia | exact Hx | auto].
  - injection Hj as ->. apply nth_error_In in Hi. specialize (Hlt a Hi). apply same_name_sym in Hs.
    apply strcase_zero in Hs; [lia | exact Hx | auto].
  - f_equal. eapply IH; eauto.
Qed.

Lemma rsw_names : Forall (fun e => cname (fst (fst e))) rsw.
Proof.
  apply Forall_forall. intros x I. apply no_nul_cname. pose proof rsw_nonul as H. rewrite forallb_forall in H. apply H, I.
Qed.

Lemma aliases_names : Forall (fun e => cname (fst e)) aliases.
Proof.
  apply Forall_forall. intros x I. apply no_nul_cname. pose proof aliases_nonul as H. rewrite forallb_forall in H. apply H in I. lia.
Qed.

Lemma find_reserved_iff w t x : cname w -> (find_reserved w = Some (t, x) <-> reserved w t x).
Proof.
  intro Hc. pose proof (reserved_in_spec rsw w rsw_ascending rsw_names Hc) as H. unfold find_reserved, reserved.
  destruct (reserved_in rsw w) as [[t' x']|].
  - destruct H as (n & I & Hs). split; [intro E; injection E as <- <-; eauto|].
    intros (n' & I' & Hs').
    assert (Hn : same_name n n') by (eapply same_name_trans; [exact Hs | apply same_name_sym, Hs']).
    apply In_nth_error in I. destruct I as [i I]. apply In_nth_error in I'. destruct I' as [j I'].
    assert (i = j).
    { eapply (ascending_inj _ rsw_ascending i j n n'); [| | |exact Hn].
      - rewrite (map_nth_error _ _ _ I). reflexivity.
      - rewrite (map_nth_error _ _ _ I'). reflexivity.
      - rewrite Forall_map. apply rsw_names. }
    subst j. rewrite I in I'. injection I' as <- <- <-. reflexivity.
  - split; [discriminate|]. intros (n & I & Hs). exfalso. eapply H; eauto.
Qed.

Lemma find_reserved_none w : cname w -> (forall t x, ~ reserved w t x) -> find_reserved w = None.
Proof.
  intros Hc H. destruct (find_reserved w) as [[t x]|] eqn:E; [|reflexivity].
  apply find_reserved_iff in E; [|exact Hc]. exfalso. eapply H, E.
Qed.

Lemma map_alias_free w : cname w -> (forall n, ~ alias_of w n) -> map_to_alias w = w.
Proof.
  intros Hc H. destruct (alias_in_spec aliases w aliases_ascending aliases_names Hc) as [(a & I & Hs) | [E _]]; [|exact E].
  exfalso. eapply H. exists a. eauto.
Qed.

Lemma map_alias_of w n : cname w -> alias_of w n -> map_to_alias w = n.
Proof.
  intros Hc (a & I & Hs).
  destruct (alias_in_spec aliases w aliases_ascending aliases_names Hc) as [(a' & I' & Hs') | [_ N]].
  - unfold map_to_alias. set (m := alias_in aliases w) in *. clearbody m.
    assert (Hn : same_name a a') by (eapply same_name_trans; [exact Hs | apply same_name_sym, Hs']).
    apply In_nth_error in I. destruct I as [i I]. apply In_nth_error in I'. destruct I' as [j I'].
    assert (i = j).
    { eapply (ascending_inj _ aliases_ascending i j a a'); [| | |exact Hn].
      - rewrite (map_nth_error _ _ _ I). reflexivity.
      - rewrite (map_nth_error _ _ _ I'). reflexivity.
      - rewrite Forall_map. apply aliases_names. }
    subst j. rewrite I in I'. injection I' as _ <-. reflexivity.
  - exfalso. eapply N; eauto.
Qed.

(** No alternative name is itself reserved *)
Lemma reserved_not_alias w t x n : cname w -> reserved w t x -> ~ alias_of w n.
Proof.
  intros Hc (r & I & Hs) (a & J & Hs').
  assert (T : forallb (fun e => forallb (fun f => negb (strcasecmp (fst (fst e)) (fst f) =? 0)) aliases) rsw = true) by (vm_compute; reflexivity).
  rewrite forallb_forall in T. specialize (T _ I). rewrite forallb_forall in T. specialize (T _ J). cbn in T.
  apply negb_true_iff, Z.eqb_neq in T. apply T.
  pose proof (proj1 (Forall_forall _ _) rsw_names _ I) as C1. pose proof (proj1 (Forall_forall _ _) aliases_names _ J) as C2. cbn in C1, C2.
  apply strcase_zero; [assumption..|]. eapply same_name_trans; [exact Hs | apply same_name_sym, Hs'].
Qed.

(** ** Symbols *)

Lemma find_next_spec t name start : cname name -> (forall y n, In y t -> y_name y = Some n -> cname n) -> forall last,
  match find_next t name start last with
  | Some i => (start <= i < last)%nat /\ (exists y, nth_error t i = Some y /\ named name y) /\
              forall j z, (i < j < last)%nat -> nth_error t j = Some z -> ~ named name z
  | None => forall j z, (start <= j < last)%nat -> nth_error t j = Some z -> ~ named name z
  end.
Proof.
  intros Hn Ht. induction last as [|i IH]; cbn [find_next]; [intros; lia|].
  destruct (i <? start)%nat eqn:Es; [intros; lia|].
  assert (Step : (forall z, nth_error t i = Some z -> ~ named name z) ->
    match find_next t name start i with
    | Some i0 => (start <= i0 < S i)%nat /\ (exists y, nth_error t i0 = Some y /\ named name y) /\
              forall j z, (i0 < j < S i)%nat -> nth_error t j = Some z -> ~ named name z
    | None => forall j z, (start <= j < S i)%nat -> nth_error t j = Some z -> ~ named name z
    end).
  { intro Hi. destruct (find_next t name start i) as [i0|].
    - destruct IH as (H1 & H2 & H3). split; [lia|]. split; [exact H2|]. intros j z Hj E.
      destruct (Nat.eq_dec j i) as [->|]; [eapply Hi, E | eapply H3; [|exact E]; lia].
    - intros j z Hj E. destruct (Nat.eq_dec j i) as [->|]; [eapply Hi, E | eapply IH; [|exact E]; lia]. }
  destruct (nth_error t i) as [y|] eqn:Ey; [|apply Step; congruence].
  destruct (y_name y) as [n|] eqn:En.
  - pose proof (Ht y n (nth_error_In _ _ Ey) En) as Cn.
    destruct (strcasecmp n name =? 0) eqn:E0.
    + split; [lia|]. split.
      * exists y. split; [exact Ey|]. exists n. split; [exact En|]. apply strcase_zero; [assumption..|lia].
      * intros; lia.
    + apply Step. intros z Ez (n' & En' & Hs). injection Ez as <-. rewrite En in En'. injection En' as <-.
      apply strcase_zero in Hs; [lia | assumption..].
  - apply Step. intros z Ez (n' & En' & Hs). injection Ez as <-. congruence.
Qed.

Definition found (k : tkn) (i : nat) (y : symbol) : tkn :=
  let k := with_str (with_tok k (y_kind y)) [] in
  let k := if y_kind y =? tREAL_CONST then with_real k (y_real y) else with_uint k (y_uint y) in
  with_ptr k (Some i).

Lemma symbol_loop_spec e name fr : cname name -> names_ok e -> forall fuel last k, (last <= S fuel)%nat ->
  let ok := fun y => named name y /\ (field y <-> fr = true) in
  match symbol_loop fuel e name fr (find_next (syms e) name (symStart e) last) k with
  | (true, k') => exists i y, (symStart e <= i < last)%nat /\ nth_error (syms e) i = Some y /\ ok y /\ k' = found k i y /\
                  forall j z, (i < j < last)%nat -> nth_error (syms e) j = Some z -> ~ ok z
  | (false, k') => k' = with_ptr k None /\ forall j z, (symStart e <= j < last)%nat -> nth_error (syms e) j = Some z -> ~ ok z
  end.
Proof.
  intros Hn Hok. induction fuel as [|fuel IH]; intros last k Hl; cbv zeta;
    pose proof (find_next_spec (syms e) name (symStart e) Hn Hok last) as F;
    destruct (find_next (syms e) name (symStart e) last) as [i|]; cbn [symbol_loop];
    try (split; [reflexivity | intros j z Hj E [? _]; eapply F; eauto; fail]);
    destruct F as (Hi & (y & Ey & Ny) & F3); rewrite Ey;
    (destruct (Bool.eqb fr (y_kind y =? sRECORD_OBJECT)) eqn:B;
     [ apply eqb_prop in B; exists i, y; split; [exact Hi|]; split; [exact Ey|];
       split; [split; [exact Ny | unfold field; split; intro; [subst fr; lia | subst fr; lia]]|];
       split; [unfold found; reflexivity|]; intros j z Hj E [? _]; eapply F3; eauto
     | ]);
    (assert (Nf : ~ (field y <-> fr = true)) by (unfold field; intro X; destruct fr; destruct (y_kind y =? sRECORD_OBJECT) eqn:Bk; cbn in B; try discriminate B;
        [ assert (y_kind y = sRECORD_OBJECT) by tauto; lia | assert (Xx : y_kind y = sRECORD_OBJECT) by lia; apply X in Xx; discriminate Xx ])).
  - split; [reflexivity|]. intros j z Hj E [N1 N2].
    destruct (Nat.eq_dec j i) as [->|]; [congruence|]. assert (j = 0)%nat by lia. assert (i = 0)%nat by lia. lia.
  - specialize (IH i k ltac:(lia)). cbv zeta in IH.
    destruct (symbol_loop fuel e name fr (find_next (syms e) name (symStart e) i) k) as [[|] k'].
    + destruct IH as (i' & y' & H1 & H2 & H3 & H4 & H5). exists i', y'. split; [lia|]. split; [exact H2|]. split; [exact H3|]. split; [exact H4|].
      intros j z Hj E [N1 N2]. destruct (Nat.lt_total j i) as [L|[->|L]].
      * eapply H5; [|exact E|]; [lia | split; assumption].
      * rewrite Ey in E. injection E as <-. contradiction.
      * eapply F3; [|exact E|exact N1]. lia.
    + destruct IH as [H1 H2]. split; [exact H1|].
      intros j z Hj E [N1 N2]. destruct (Nat.lt_total j i) as [L|[->|L]].
      * eapply H2; [|exact E|]; [lia | split; assumption].
      * rewrite Ey in E. injection E as <-. contradiction.
      * eapply F3; [|exact E|exact N1]. lia.
Qed.

Lemma symbol_token_found e w fr k i y : cname w -> names_ok e -> denotes e w fr i y ->
  symbol_token e w fr k = (true, found k i y).
Proof.
  intros Hc Hok (H1 & H2 & H3 & H4).
  pose proof (symbol_loop_spec e w fr Hc Hok (List.length (syms e)) (List.length (syms e)) k ltac:(lia)) as S. cbv zeta in S.
  unfold symbol_token, find_symbol. destruct (symbol_loop _ e w fr _ k) as [[|] k'].
  - destruct S as (i' & y' & S1 & S2 & S3 & -> & S5).
    assert (i' = i).
    { destruct (Nat.lt_total i' i) as [L|[E|L]]; [|exact E|].
      - exfalso. eapply S5; [|exact H2|exact H3]. split; [exact L|]. apply nth_error_Some. congruence.
      - exfalso. eapply H4; eauto. }
    subst i'. congruence.
  - destruct S as [_ S]. exfalso. eapply S; [|exact H2|exact H3]. split; [exact H1|]. apply nth_error_Some. congruence.
Qed.

Lemma symbol_token_none e w fr k : cname w -> names_ok e -> denotes_none e w fr ->
  symbol_token e w fr k = (false, with_ptr k None).
Proof.
  intros Hc Hok Hn.
  pose proof (symbol_loop_spec e w fr Hc Hok (List.length (syms e)) (List.length (syms e)) k ltac:(lia)) as S. cbv zeta in S.
  unfold symbol_token, find_symbol. destruct (symbol_loop _ e w fr _ k) as [[|] k'].
  - destruct S as (i' & y' & S1 & S2 & S3 & -> & S5). exfalso. apply (Hn i' y'). split; [tauto|]. split; [exact S2|]. split; [exact S3|].
    intros j z L E. apply S5 with j; [|exact E]. split; [exact L|]. apply nth_error_Some. congruence.
  - destruct S as [-> _]. reflexivity.
Qed.

(** ** Words *)

Lemma word_read e c k w x r : ahead c (w ++ x :: r) -> is_word w -> ~ word_char x ->
  exists c', settles e c k (TOk c' (identifier e (k_tok k) w (plain k))) /\ ahead c' (x :: r).
Proof.
  intros H (a & t & -> & Ha & Ht) Hx.
  assert (P : forall z, word_char z <-> is_alnum z || (z =? 95) = true)
    by (intro z; unfold word_char, letter, dec_digit, is_alnum, is_alpha, is_digit, is_upper, is_lower; lia).
  assert (Hall : Forall (fun z => is_alnum z || (z =? 95) = true) (a :: t)).
  { constructor; [apply P; unfold word_start, word_char in *; tauto|]. eapply Forall_impl; [|exact Ht]. intros z. apply P. }
  assert (Hnx : is_alnum x || (x =? 95) = false).
  { destruct (is_alnum x || (x =? 95)) eqn:E; [exfalso; apply Hx, P, E | reflexivity]. }
  destruct (take_while_ahead _ _ (S (List.length (a :: t))) c x r H Hall Hnx ltac:(lia)) as (c1 & E & H1).
  exists c1. split; [|exact H1]. apply settles_at with (S (List.length (a :: t))); [|discriminate].
  assert (Hic : ic c = a) by (apply ahead_ic in H; exact H).
  unfold word_start, letter in Ha.
  rewrite get_token_at, take_space_stop by (rewrite Hic; unfold is_space; lia).
  unfold token_at. cbv zeta. rewrite Hic.
  replace (is_alpha a || (a =? 95)) with true by (unfold is_alpha, is_upper, is_lower; lia).
  rewrite E. reflexivity.
Qed.

Lemma word_cname w : is_word w -> cname w.
Proof.
  intros (a & t & -> & Ha & Ht) [I|I]; [subst; unfold word_start, letter in Ha; lia|].
  rewrite Forall_forall in Ht. apply Ht in I. unfold word_char, letter, dec_digit in I. lia.
Qed.

Lemma reserved_word e c k w x r t sub : ahead c (w ++ x :: r) -> is_word w -> ~ word_char x ->
  (reserved w t sub \/ exists n, alias_of w n /\ reserved n t sub) ->
  exists c' k', settles e c k (TOk c' k') /\ ahead c' (x :: r) /\ k_tok k' = t /\ k_sub k' = sub /\ k_errs k' = k_errs k.
Proof.
  intros H Hw Hx Hr. destruct (word_read e c k w x r H Hw Hx) as (c' & S & H'). pose proof (word_cname w Hw) as Cw.
  assert (F : find_reserved (map_to_alias w) = Some (t, sub)).
  { destruct Hr as [Hr | (n & Ha & Hr)].
    - rewrite map_alias_free; [apply find_reserved_iff; assumption | exact Cw |]. intros n. eapply reserved_not_alias; eauto.
    - rewrite (map_alias_of w n Cw Ha). apply find_reserved_iff; [|exact Hr].
      destruct Ha as (a & I & _). pose proof aliases_nonul as T. rewrite forallb_forall in T. apply T in I. apply andb_prop in I. apply no_nul_cname, I. }
  eexists c', _. split; [exact S|]. split; [exact H'|]. unfold identifier. cbv zeta. rewrite F. cbn. auto.
Qed.

Lemma token_of_found k i y : token_of y i (found k i y).
Proof.
  unfold token_of, found. destruct (y_kind y =? tREAL_CONST) eqn:E; cbn; (split; [reflexivity|]; split; [reflexivity|]); split; intro; try reflexivity; lia.
Qed.

Lemma found_errs k i y : k_errs (found k i y) = k_errs k.
Proof. unfold found. destruct (y_kind y =? tREAL_CONST); reflexivity. Qed.

Lemma free_word e c k w x r : ahead c (w ++ x :: r) -> is_word w -> ~ word_char x -> free_name w -> names_ok e ->
  exists c' k', settles e c k (TOk c' k') /\ ahead c' (x :: r) /\ k_errs k' = k_errs k /\
    let wantField := (k_tok k =? 46) || inWith e in
    (forall i y, denotes e w wantField i y -> token_of y i k') /\
    (denotes_none e w wantField -> forall i y, denotes e w false i y -> token_of y i k') /\
    (denotes_none e w wantField -> denotes_none e w false -> unknown_name w k').
Proof.
  intros H Hw Hx [Fr Fa] Hok. destruct (word_read e c k w x r H Hw Hx) as (c' & S & H'). pose proof (word_cname w Hw) as Cw.
  eexists c', _. split; [exact S|]. split; [exact H'|].
  unfold identifier. cbv zeta. rewrite (map_alias_free w Cw Fa), (find_reserved_none w Cw Fr).
  set (k1 := with_tok _ tIDENT). set (wf := (k_tok k =? 46) || inWith e).
  assert (K1 : k_errs k1 = k_errs k) by reflexivity.
  assert (D : forall fr, (exists i y, denotes e w fr i y) \/ denotes_none e w fr).
  { intro fr. pose proof (symbol_loop_spec e w fr Cw Hok (List.length (syms e)) (List.length (syms e)) k1 ltac:(lia)) as L. cbv zeta in L.
    destruct (symbol_loop _ e w fr _ k1) as [[|] k'].
    - left. destruct L as (i & y & L1 & L2 & L3 & _ & L5). exists i, y. split; [tauto|]. split; [exact L2|]. split; [exact L3|].
      intros j z Lt E. apply L5 with j; [|exact E]. split; [exact Lt|]. apply nth_error_Some. congruence.
    - right. destruct L as [_ L]. intros i y (A1 & A2 & A3 & _). eapply L; [|exact A2|exact A3]. split; [exact A1|]. apply nth_error_Some. congruence. }
  destruct (D wf) as [(i & y & Hd) | Hn].
  - rewrite (symbol_token_found e w wf k1 i y Cw Hok Hd). split; [rewrite found_errs; exact K1|].
    split; [|split; intro N; exfalso; eapply N, Hd].
    intros i' y' Hd'. assert (i' = i /\ y' = y) as [-> ->].
    { destruct Hd as (A1 & A2 & A3 & A4), Hd' as (B1 & B2 & B3 & B4).
      assert (i' = i). { destruct (Nat.lt_total i' i) as [L|[E|L]]; [exfalso; eapply B4; eauto | exact E | exfalso; eapply A4; eauto]. }
      subst. split; [reflexivity | congruence]. }
    apply token_of_found.
  - rewrite (symbol_token_none e w wf k1 Cw Hok Hn).
    destruct (D false) as [(i & y & Hd) | Hn2].
    + destruct wf eqn:Ew.
      * rewrite (symbol_token_found e w false _ i y Cw Hok Hd). cbn [snd]. split; [rewrite found_errs; reflexivity|].
        split; [intros i' y' Hd'; exfalso; eapply Hn, Hd'|]. split.
        -- intros _ i' y' Hd'. assert (i' = i /\ y' = y) as [-> ->].
           { destruct Hd as (A1 & A2 & A3 & A4), Hd' as (B1 & B2 & B3 & B4).
             assert (i' = i). { destruct (Nat.lt_total i' i) as [L|[E|L]]; [exfalso; eapply B4; eauto | exact E | exfalso; eapply A4; eauto]. }
             subst. split; [reflexivity | congruence]. }
           apply token_of_found.
        -- intros _ N. exfalso. eapply N, Hd.
      * exfalso. eapply Hn, Hd.
    + destruct wf.
      * rewrite (symbol_token_none e w false _ Cw Hok Hn2). cbn [snd].
        split; [reflexivity|]. split; [intros i' y' Hd'; exfalso; eapply Hn, Hd'|].
        split; [intros _ i' y' Hd'; exfalso; eapply Hn2, Hd'|]. intros _ _. split; [reflexivity|]. split; reflexivity.
      * split; [reflexivity|]. split; [intros i' y' Hd'; exfalso; eapply Hn, Hd'|].
        split; [intros _ i' y' Hd'; exfalso; eapply Hn2, Hd'|]. intros _ _. split; [reflexivity|]. split; reflexivity.
Qed.

(** ** Comments to the end of the line *)

Lemma whole_tail x l : whole_line (x :: l) -> l = [] \/ (x <> 10 /\ whole_line l).
Proof.
  intros ([|a l'] & E & N).
  - left. cbn in E. congruence.
  - right. cbn in E. injection E as -> ->. split; [cbn in N; lia|]. exists l'. split; [reflexivity | cbn in N; tauto].
Qed.

Lemma next_line_lines b ls y r : Forall whole_line ls -> concat ls = y :: r -> by_lines (next_line b ls).
Proof.
  intros H E. destruct ls as [|l ls]; [discriminate|]. inversion_clear H as [|? ? Hl Hls].
  destruct l as [|a l]; [destruct Hl as ([|] & X & _); discriminate X|]. cbn. split; assumption.
Qed.

Lemma by_lines_next c x y r : by_lines c -> ahead c (x :: y :: r) -> by_lines (get_char c).
Proof.
  intros [H1 H2] Ha. unfold ahead in Ha. injection Ha as -> Ha. unfold get_char, skip_line.
  destruct (cpos c) as [|z p] eqn:E.
  - cbn in Ha. eapply next_line_lines; eauto.
  - apply whole_tail in H1. destruct H1 as [H1 | [_ H1]]; [discriminate|]. split; assumption.
Qed.

Lemma skip_line_ahead c s y r : by_lines c -> ahead c (s ++ 10 :: y :: r) -> ~ In 10 s ->
  ahead (skip_line c) (y :: r) /\ by_lines (skip_line c).
Proof.
  intros [(l & E & N) H2] Ha Hs. unfold ahead in Ha. change (ic c :: cpos c ++ concat (clines c)) with ((ic c :: cpos c) ++ concat (clines c)) in Ha.
  rewrite E, <- app_assoc in Ha. cbn in Ha.
  assert (U : forall a b t u, ~ In 10 a -> ~ In 10 b -> a ++ 10 :: t = b ++ 10 :: u -> t = u).
  { induction a as [|p a IH]; intros [|q b] t u Ia Ib X; cbn in X, Ia, Ib; injection X; intros; subst; try tauto.
    eapply IH; [| |eassumption]; tauto. }
  apply U in Ha; [|exact Hs|exact N]. unfold skip_line. split; [apply next_line_ahead; symmetry; exact Ha|].
  eapply next_line_lines; [exact H2 | symmetry; exact Ha].
Qed.

Lemma line_comment e c s x r : by_lines c -> ahead c (47 :: 47 :: s ++ 10 :: x :: r) -> ~ In 10 s ->
  exists c', ahead c' (x :: r) /\ by_lines c' /\ forall k res, res <> TFuel -> settles e c' k res -> settles e c k res.
Proof.
  intros Hb H Hs. pose proof (get_char_ahead _ _ _ _ H) as H1. pose proof (by_lines_next _ _ _ _ Hb H) as Hb1.
  destruct (skip_line_ahead (get_char c) (47 :: s) x r Hb1 H1 ltac:(cbn; intros [?|?]; [lia | tauto])) as [H2 Hb2].
  exists (skip_line (get_char c)). split; [exact H2|]. split; [exact Hb2|]. intros k res Hr Hset.
  apply settles_inv in Hset. destruct Hset as [f Hf]. apply settles_at with (S (S f)); [|exact Hr].
  rewrite get_token_at, take_space_stop by (rewrite (ahead_ic _ _ _ H); reflexivity).
  unfold token_at. cbv zeta. rewrite (ahead_ic _ _ _ H), (ahead_ic _ _ _ H1).
  cbn [Z.eqb Pos.eqb is_alpha is_upper is_lower is_digit Z.leb Z.compare Pos.compare Pos.compare_cont orb andb].
  rewrite get_token_plain. exact Hf.
Qed.

Lemma fgets_whole l : forall room acc f, (List.length l <= room)%nat -> ~ In 10 l ->
  fgets_lines room acc (l ++ 10 :: f) = (rev acc ++ l ++ [10]) :: fgets_lines 254 [] f.
Proof.
  induction l as [|a l IH]; intros room acc f Hl Hn; cbn [app fgets_lines].
  - reflexivity.
  - cbn in Hl, Hn. replace (a =? 10) with false by lia. destruct room as [|room]; [lia|].
    rewrite IH by (try lia; tauto). cbn [rev]. rewrite <- app_assoc. reflexivity.
Qed.

Lemma text_lines f : text_of 254 f -> Forall whole_line (fgets_lines 254 [] f) /\ concat (fgets_lines 254 [] f) = f.
Proof.
  induction 1 as [|l t Hl Hn _ [IH1 IH2]]; [split; [constructor|reflexivity]|].
  rewrite fgets_whole by assumption. cbn [rev app]. split.
  - constructor; [exists l; auto | exact IH1].
  - cbn [concat]. rewrite IH2, <- app_assoc. reflexivity.
Qed.

Lemma prime_lines f : text_of 254 f -> f <> [] -> by_lines (prime f) /\ ahead (prime f) f.
Proof.
  intros H Hne. destruct (text_lines f H) as [H1 H2]. unfold prime.
  destruct (fgets_lines 254 [] f) as [|l ls]; [cbn in H2; congruence|].
  inversion_clear H1 as [|? ? Hl Hls]. destruct l as [|a l]; [destruct Hl as ([|] & X & _); discriminate X|].
  cbn. split; [split; assumption|]. unfold ahead. cbn. cbn in H2. symmetry. exact H2.
Qed.

Lemma fgets_concat : forall f room acc, concat (fgets_lines room acc f) = rev acc ++ f.
Proof.
  induction f as [|a f IH]; intros room acc; cbn [fgets_lines].
  - destruct acc; [reflexivity|]. cbn [concat]. reflexivity.
  - destruct (a =? 10); [|destruct room].
    + cbn [concat]. rewrite IH. cbn [rev app]. rewrite <- app_assoc. reflexivity.
    + cbn [concat]. rewrite IH. cbn [rev app]. rewrite <- app_assoc. reflexivity.
    + rewrite IH. cbn [rev]. rewrite <- app_assoc. reflexivity.
Qed.

(** The tokenizer starts at the first character of any file *)
Lemma prime_ahead f : f <> [] -> ahead (prime f) f.
Proof.
  intro Hne. unfold prime. pose proof (fgets_concat f 254 []) as E. cbn [rev app] in E.
  destruct (fgets_lines 254 [] f) as [|l ls]; [cbn in E; congruence|].
  destruct f as [|x f]; [contradiction|]. destruct l as [|a l].
  - cbn [concat app] in E. unfold get_char. cbn [cpos skip_line cbuf clines]. apply next_line_ahead, E.
  - cbn in *. unfold ahead. cbn. symmetry. exact E.
Qed.
