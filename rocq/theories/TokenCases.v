(** Concrete texts for the properties of the tokenizer. *)

From Coq Require Import ZArith Bool String List Lia ZifyBool Arith.
From Verif Require Import TokenModel TokenSpec TokenProofs TokenProofs2 TokenProofs3 TokenProofs4.
Import ListNotations.
Open Scope Z_scope.

Definition src (s : string) : cs := prime (chars s ++ [10]).

Lemma src_ahead s : ahead (src s) (chars s ++ [10]).
Proof. apply prime_ahead. destruct (chars s); discriminate. Qed.

Ltac settled n := apply settles_at with n; [vm_compute; reflexivity | discriminate].

Lemma dollar_refuted : exists c k c' k',
  ahead c (chars "$1F;" ++ [10]) /\ settles nobody c k (TOk c' k') /\ k_tok k' = 36 /\ ahead c' (chars "1F;" ++ [10]).
Proof.
  exists (src "$1F;"), fresh. eexists _, _. split; [apply src_ahead|]. split; [settled 10%nat|]. split; vm_compute; reflexivity.
Qed.

Lemma binary_refuted : exists c k c' k',
  ahead c (chars "%101;" ++ [10]) /\ settles nobody c k (TOk c' k') /\ k_tok k' = tINT_CONST /\ k_uint k' = 257 /\
  value_in 2 [1; 0; 1] = 5.
Proof.
  exists (src "%101;"), fresh. eexists _, _. split; [apply src_ahead|]. split; [settled 10%nat|]. split; [|split]; vm_compute; reflexivity.
Qed.

(** A line of 300 letters behind // *)
Definition long_line : list Z := chars "//" ++ repeat 97 300 ++ [10].

Lemma long_comment_refuted : exists f s c' k', f = 47 :: 47 :: s ++ [10] /\ ~ In 10 s /\ ahead (prime f) f /\
  settles nobody (prime f) fresh (TOk c' k') /\ k_tok k' = tIDENT /\ k_str k' = repeat 97 47.
Proof.
  exists long_line, (repeat 97 300). eexists _, _. split; [reflexivity|]. split.
  - intro H. apply repeat_spec in H. discriminate.
  - split; [apply prime_ahead; discriminate|]. split; [settled 400%nat|]. split; vm_compute; reflexivity.
Qed.

Lemma open_comment_refuted : exists c m, ahead c (m ++ [10]) /\ forall e k, never e c k.
Proof.
  exists (src "{ begin"), (chars "{ begin"). split; [apply src_ahead|]. intros e k. apply open_brace; [reflexivity|].
  unfold lacks. vm_compute. intuition discriminate.
Qed.

Definition not_listed (w : list Z) : bool :=
  no_nul w && forallb (fun e => negb (strcasecmp (fst (fst e)) w =? 0)) rsw && forallb (fun e => negb (strcasecmp (fst e) w =? 0)) aliases.

Lemma not_listed_free w : not_listed w = true -> free_name w.
Proof.
  unfold not_listed. intro H. apply andb_prop in H. destruct H as [H H2]. apply andb_prop in H. destruct H as [H0 H1].
  apply no_nul_cname in H0. rewrite forallb_forall in H1, H2. split.
  - intros t x (n & I & S). pose proof (proj1 (Forall_forall _ _) rsw_names _ I) as C. apply strcase_zero in S; [|exact C | exact H0].
    apply H1 in I. cbn [fst] in I. rewrite S in I. discriminate I.
  - intros n (v & I & S). pose proof (proj1 (Forall_forall _ _) aliases_names _ I) as C. apply strcase_zero in S; [|exact C | exact H0].
    apply H2 in I. cbn [fst] in I. rewrite S in I. discriminate I.
Qed.

Definition word_b (w : list Z) : bool :=
  match w with c :: r => (is_alpha c || (c =? 95)) && forallb (fun a => is_alnum a || (a =? 95)) r | [] => false end.

Lemma word_b_ok w : word_b w = true -> is_word w.
Proof.
  destruct w as [|c r]; [discriminate|]. cbn. intro H. apply andb_prop in H. destruct H as [H1 H2]. rewrite forallb_forall in H2.
  exists c, r. split; [reflexivity|]. unfold is_alnum, is_alpha, is_digit, is_upper, is_lower in *. split; [unfold word_start, letter; lia|].
  apply Forall_forall. intros z I. apply H2 in I. unfold word_char, letter, dec_digit. lia.
Qed.

(** A variable named Text is declared, and is not found *)
Definition y_text : symbol := mkSym (Some (chars "Text")) 80 1 0 [] [].
Definition e_text : symenv := mkEnv [y_text] 0 false.

Lemma alias_refuted : exists e c k w x r i y c' k', ahead c (w ++ x :: r) /\ is_word w /\ ~ word_char x /\
  (forall t s, ~ reserved w t s) /\ names_ok e /\ k_tok k <> 46 /\ inWith e = false /\
  denotes e w false i y /\ y_name y = Some w /\ settles e c k (TOk c' k') /\ k_ptr k' = None /\ k_tok k' = tIDENT.
Proof.
  exists e_text, (src "Text;"), fresh, (chars "Text"), 59, [10], 0%nat, y_text. eexists _, _.
  split; [apply src_ahead|]. split.
  { apply word_b_ok. reflexivity. }
  split; [unfold word_char, letter, dec_digit; lia|].
  split. { intros t s H. apply find_reserved_iff in H; [vm_compute in H; discriminate|]. unfold cname. vm_compute. intuition discriminate. }
  split. { intros y n [<-|[]] E. injection E as <-. unfold cname. vm_compute. intuition discriminate. }
  split; [discriminate|]. split; [reflexivity|]. split.
  { split; [cbn; lia|]. split; [reflexivity|]. split.
    - split; [exists (chars "Text"); split; [reflexivity | apply same_name_lower; reflexivity] | unfold field; vm_compute; intuition discriminate].
    - intros j z L E. destruct j as [|[|j]]; [lia | discriminate E | destruct j; discriminate E]. }
  split; [reflexivity|]. split; [settled 10%nat|]. split; reflexivity.
Qed.

(** An inner variable hides the outer one; a field with the same name does not *)
Definition e_scopes : symenv :=
  mkEnv [mkSym (Some (chars "count")) 80 0 8 [] []; mkSym (Some (chars "Count")) 80 1 4 [] []; mkSym (Some (chars "COUNT")) 89 1 2 [] []] 0 false.

Lemma scopes_case : names_ok e_scopes /\ free_name (chars "count") /\ is_word (chars "count") /\
  (exists y, denotes e_scopes (chars "count") false 1 y) /\ exists y, denotes e_scopes (chars "count") true 2 y.
Proof.
  split. { intros y n [<-|[<-|[<-|[]]]] E; injection E as <-; apply no_nul_cname; reflexivity. }
  split; [apply not_listed_free; vm_compute; reflexivity|].
  split; [apply word_b_ok; reflexivity|].
  split; eexists; (split; [cbn; lia|]; split; [reflexivity|]; split).
  - split; [eexists; split; [reflexivity | apply same_name_lower; reflexivity] | unfold field; cbn; unfold sRECORD_OBJECT; intuition discriminate].
  - intros j z L E [_ F]. destruct j as [|[|[|j]]]; [lia|lia| |destruct j; discriminate E]. injection E as <-. destruct F as [F _]. discriminate (F eq_refl).
  - split; [eexists; split; [reflexivity | apply same_name_lower; reflexivity] | unfold field; cbn; tauto].
  - intros j z L E. destruct j as [|[|[|j]]]; [lia|lia|lia|destruct j; discriminate E].
Qed.

Lemma word_symbol n t sub w : In (n, t, sub) word_symbols -> same_name n w -> is_word w /\ reserved w t sub.
Proof.
  intros I S.
  assert (T : forallb (fun e => let '(n, t, x) := e in
     word_b n && no_nul n && match find_reserved n with Some (t', x') => (t' =? t) && (x' =? x) | None => false end)
     word_symbols = true) by (vm_compute; reflexivity).
  rewrite forallb_forall in T. apply T in I. apply andb_prop in I. destruct I as [I E]. apply andb_prop in I. destruct I as [Wn Nn].
  split; [|].
  - apply word_b_ok in Wn. destruct Wn as (c & r & -> & Hc & Hr). inversion S as [|a b l m Sa Sl]; subst. exists b, m.
    split; [reflexivity|]. split.
    + apply same_letter_lower in Sa. unfold to_lower, is_upper in Sa. unfold word_start, letter in *.
      destruct (_ && _) eqn:E1 in Sa; destruct (_ && _) eqn:E2 in Sa; lia.
    + clear - Hr Sl. induction Sl as [|a b l m Sa Sl IH]; [constructor|]. inversion Hr; subst. constructor; [|auto].
      apply same_letter_lower in Sa. unfold to_lower, is_upper in Sa. unfold word_char, letter, dec_digit in *.
      destruct (_ && _) eqn:E1 in Sa; destruct (_ && _) eqn:E2 in Sa; lia.
  - destruct (find_reserved n) as [[t' x']|] eqn:F; [|discriminate]. apply andb_prop in E.
    assert (t' = t) by lia. assert (x' = sub) by lia. subst.
    apply find_reserved_iff in F; [|apply no_nul_cname; exact Nn]. destruct F as (n' & I' & S').
    exists n'. split; [exact I'|]. eapply same_name_trans; [exact S'|exact S].
Qed.

(** Two different words never share a token *)
Lemma word_symbols_differ n1 n2 t sub : In (n1, t, sub) word_symbols -> In (n2, t, sub) word_symbols -> n1 = n2.
Proof.
  intros I1 I2.
  assert (T : forallb (fun e1 => forallb (fun e2 => let '(n1, t1, x1) := e1 in let '(n2, t2, x2) := e2 in
     negb ((t1 =? t2) && (x1 =? x2)) || if list_eq_dec Z.eq_dec n1 n2 then true else false) word_symbols) word_symbols = true)
    by (vm_compute; reflexivity).
  rewrite forallb_forall in T. specialize (T _ I1). rewrite forallb_forall in T. specialize (T _ I2). cbn in T.
  rewrite !Z.eqb_refl in T. cbn in T. destruct (list_eq_dec Z.eq_dec n1 n2); [assumption|discriminate].
Qed.
