(** Line lookup and string table. *)

From Coq Require Import ZArith Bool List Lia ZifyBool.
From Verif Require Import PoffModel PoffSpec.
Import ListNotations.
Open Scope Z_scope.

(** ** Lines *)

Lemma loop_spec tab (S : ascending tab) offset : forall n first last index,
  (first <= last)%nat -> (last < length tab)%nat -> (last - first <= n)%nat ->
  (first = 0%nat \/ exists x, nth_error tab first = Some x /\ x <= offset) ->
  (last = (length tab - 1)%nat \/ exists x, nth_error tab last = Some x /\ offset < x) ->
  (first = last -> index = first \/ (index = pred last /\ last = (length tab - 1)%nat /\ (exists x, nth_error tab last = Some x /\ x <= offset) /\
                                    exists x, nth_error tab index = Some x /\ x <= offset)) ->
  exists i, line_loop n tab offset first last index = Some i /\ (i < length tab)%nat /\
    ((exists x, nth_error tab i = Some x /\ offset < x /\ line_of tab offset None) \/ line_of tab offset (Some i) \/
     (i = (length tab - 2)%nat /\ (2 <= length tab)%nat /\ (exists x, nth_error tab (length tab - 1) = Some x /\ x <= offset) /\
      exists x, nth_error tab i = Some x /\ x <= offset)).
Proof.
  induction n as [|n IH]; intros first last index FL LL LN HF HL HI.
  - assert (first = last) by lia. subst last. cbn [line_loop]. rewrite Nat.eqb_refl.
    assert (exists m, nth_error tab first = Some m) as [m Em] by (destruct (nth_error tab first) eqn:En; [eexists; reflexivity|apply nth_error_None in En; lia]).
    destruct (HI eq_refl) as [->|(-> & E & L1 & L2)].
    + exists first. split; [reflexivity|]. split; [lia|]. destruct (Z_lt_le_dec offset m) as [Lt|Le].
      * left. exists m. split; [exact Em|]. split; [exact Lt|]. destruct HF as [->|(x & E1 & E2)]; [|assert (m = x) by congruence; lia].
        intros j y Ej. specialize (S 0%nat j m y ltac:(lia) Em Ej). lia.
      * right. left. exists m. split; [exact Em|]. split; [exact Le|]. intros j y Ej Ly.
        destruct HL as [->|(x & E1 & E2)]; [|assert (m = x) by congruence; lia].
        assert (j < length tab)%nat by (apply nth_error_Some; congruence). apply (S j (length tab - 1)%nat); [lia|exact Ej|exact Em].
    + exists (pred first). split; [reflexivity|]. split; [lia|].
      destruct (Nat.eq_dec first 0) as [->|].
      * cbn [pred]. right. left. destruct L1 as (x & E1 & E2). exists x. split; [exact E1|]. split; [exact E2|]. intros j y Ej Ly.
        assert (j < length tab)%nat by (apply nth_error_Some; congruence). apply (S j 0%nat); [lia|exact Ej|exact E1].
      * right. right. split; [lia|]. split; [lia|]. split; [rewrite <- E; exact L1|first [exact L2|replace (length tab - 2)%nat with (pred first) by lia; exact L2]].
  - cbn [line_loop]. destruct (first =? last)%nat eqn:FLe.
    + apply Nat.eqb_eq in FLe. subst last. clear IH.
      assert (exists m, nth_error tab first = Some m) as [m Em] by (destruct (nth_error tab first) eqn:En; [eexists; reflexivity|apply nth_error_None in En; lia]).
      destruct (HI eq_refl) as [->|(-> & E & L1 & L2)].
      * exists first. split; [reflexivity|]. split; [lia|]. destruct (Z_lt_le_dec offset m) as [Lt|Le].
        -- left. exists m. split; [exact Em|]. split; [exact Lt|]. destruct HF as [->|(x & E1 & E2)]; [|assert (m = x) by congruence; lia].
           intros j y Ej. specialize (S 0%nat j m y ltac:(lia) Em Ej). lia.
        -- right. left. exists m. split; [exact Em|]. split; [exact Le|]. intros j y Ej Ly.
           destruct HL as [->|(x & E1 & E2)]; [|assert (m = x) by congruence; lia].
           assert (j < length tab)%nat by (apply nth_error_Some; congruence). apply (S j (length tab - 1)%nat); [lia|exact Ej|exact Em].
      * exists (pred first). split; [reflexivity|]. split; [lia|].
        destruct (Nat.eq_dec first 0) as [->|].
        -- cbn [pred]. right. left. destruct L1 as (x & E1 & E2). exists x. split; [exact E1|]. split; [exact E2|]. intros j y Ej Ly.
           assert (j < length tab)%nat by (apply nth_error_Some; congruence). apply (S j 0%nat); [lia|exact Ej|exact E1].
        -- right. right. split; [lia|]. split; [lia|]. split; [rewrite <- E; exact L1|first [exact L2|replace (length tab - 2)%nat with (pred first) by lia; exact L2]].
    + apply Nat.eqb_neq in FLe. rewrite Nat.div2_div. set (mid := ((first + last) / 2)%nat).
      assert (M : (first <= mid /\ mid < last)%nat).
      { unfold mid. split; [apply Nat.div_le_lower_bound; lia|apply Nat.div_lt_upper_bound; lia]. }
      clearbody mid.
      destruct (nth_error tab mid) as [m|] eqn:Em; [|apply nth_error_None in Em; lia].
      destruct (offset <? m) eqn:C1.
      * apply (IH first mid mid); [lia|lia|lia|exact HF|right; exists m; split; [exact Em|lia]|intros X; left; symmetry; exact X].
      * destruct (m =? offset) eqn:C2.
        -- exists mid. split; [reflexivity|]. split; [lia|]. right. left. exists m. split; [exact Em|]. split; [lia|]. intros j y _ Ly. lia.
        -- destruct (nth_error tab (Datatypes.S mid)) as [m'|] eqn:Em'; [|apply nth_error_None in Em'; lia].
           destruct (offset <? m') eqn:C3.
           ++ exists mid. split; [reflexivity|]. split; [lia|]. right. left. exists m. split; [exact Em|]. split; [lia|].
              intros j y Ej Ly. destruct (Nat.le_gt_cases j mid) as [Le|Gt]; [apply (S j mid); assumption|].
              specialize (S (Datatypes.S mid) j m' y Gt Em' Ej). lia.
           ++ apply (IH (Datatypes.S mid) last mid); [lia|lia|lia| |exact HL|].
              ** right. exists m'. split; [exact Em'|lia].
              ** intros E. right. split; [lia|]. rewrite <- E. split.
                 { destruct HL as [HL|(x & E1 & E2)]; [lia|]. assert (m' = x) by congruence; lia. }
                 split; [exists m'; split; [exact Em'|lia]|exists m; split; [exact Em|lia]].
Qed.

Lemma find_line_spec tab prev offset : ascending tab -> (prev < length tab)%nat ->
  exists r prev', find_line tab prev offset = Some (r, prev') /\ (prev' < length tab)%nat /\
    (line_of tab offset r \/
     (r = Some (length tab - 2)%nat /\ (2 <= length tab)%nat /\ (exists x, nth_error tab (length tab - 1) = Some x /\ x <= offset) /\
      exists x, nth_error tab (length tab - 2) = Some x /\ x <= offset)).
Proof.
  intros S Lp. unfold find_line. destruct tab as [|t0 tab0]; [cbn in Lp; lia|]. set (tab := t0 :: tab0) in *.
  destruct (nth_error tab prev) as [m|] eqn:Em; [|apply nth_error_None in Em; lia].
  set (fl := if m <=? offset then (prev, (length tab - 1)%nat) else (0%nat, prev)).
  assert (G : exists i, line_loop (length tab) tab offset (fst fl) (snd fl) (fst fl) = Some i /\ (i < length tab)%nat /\
    ((exists x, nth_error tab i = Some x /\ offset < x /\ line_of tab offset None) \/ line_of tab offset (Some i) \/
     (i = (length tab - 2)%nat /\ (2 <= length tab)%nat /\ (exists x, nth_error tab (length tab - 1) = Some x /\ x <= offset) /\
      exists x, nth_error tab i = Some x /\ x <= offset))).
  { unfold fl. destruct (m <=? offset) eqn:C; cbn [fst snd].
    - apply (loop_spec tab S); [lia|lia|lia|right; exists m; split; [exact Em|lia]|left; reflexivity|left; reflexivity].
    - apply (loop_spec tab S); [lia|lia|lia|left; reflexivity|right; exists m; split; [exact Em|lia]|left; reflexivity]. }
  destruct fl as [first last]. cbn [fst snd] in G. destruct G as (i & -> & Li & D). cbn [obind].
  destruct (nth_error tab i) as [x|] eqn:Ex; [|apply nth_error_None in Ex; lia].
  destruct (offset <? x) eqn:C.
  - exists None, 0%nat. split; [reflexivity|]. split; [lia|]. left. destruct D as [(y & _ & _ & N)|[(y & E & L & _)|(_ & _ & _ & y & E & L)]].
    + exact N.
    + assert (x = y) by congruence; lia.
    + assert (x = y) by congruence; lia.
  - exists (Some i), i. split; [reflexivity|]. split; [exact Li|]. destruct D as [(y & E & L & _)|[D|(-> & D)]].
    + assert (x = y) by congruence; lia.
    + left. exact D.
    + right. split; [reflexivity|]. destruct D as (D1 & D2 & y & D3 & D4). split; [exact D1|]. split; [exact D2|]. exists x. split; [exact Ex|]. lia.
Qed.

Lemma lookups_ok tab os : ascending tab -> tab <> [] -> exists prev, lookups tab 0 os = Some prev /\ (prev < length tab)%nat.
Proof.
  intros S NE. assert (L0 : (0 < length tab)%nat) by (destruct tab; [contradiction|cbn; lia]). revert L0. generalize 0%nat.
  induction os as [|o os IH]; intros prev Lp; cbn [lookups]; [exists prev; split; [reflexivity|exact Lp]|].
  destruct (find_line_spec tab prev o S Lp) as (r & prev' & -> & Lp' & _). cbn [obind]. apply IH, Lp'.
Qed.

Lemma lookup_partial tab os offset x : ascending tab -> nth_error tab (length tab - 1) = Some x -> offset < x ->
  exists prev r prev', lookups tab 0 os = Some prev /\ find_line tab prev offset = Some (r, prev') /\ line_of tab offset r.
Proof.
  intros S E L. assert (NE : tab <> []) by (intros ->; discriminate E). destruct (lookups_ok tab os S NE) as (prev & Lk & Lp).
  destruct (find_line_spec tab prev offset S Lp) as (r & prev' & F & _ & [D|(_ & _ & (y & Ey & Ly) & _)]).
  - exists prev, r, prev'. split; [exact Lk|]. split; [exact F|exact D].
  - assert (x = y) by congruence; lia.
Qed.

Lemma lookup_last tab os offset : ascending tab -> tab <> [] ->
  exists prev r prev', lookups tab 0 os = Some prev /\ find_line tab prev offset = Some (r, prev') /\
    (line_of tab offset r \/ (r = Some (length tab - 2)%nat /\ line_of tab offset (Some (length tab - 1)%nat))).
Proof.
  intros S NE. destruct (lookups_ok tab os S NE) as (prev & Lk & Lp).
  destruct (find_line_spec tab prev offset S Lp) as (r & prev' & F & _ & [D|(-> & L2 & (y & Ey & Ly) & _)]).
  - exists prev, r, prev'. split; [exact Lk|]. split; [exact F|left; exact D].
  - exists prev, (Some (length tab - 2)%nat), prev'. split; [exact Lk|]. split; [exact F|]. right. split; [reflexivity|].
    exists y. split; [exact Ey|]. split; [exact Ly|]. intros j z Ej _.
    assert (j < length tab)%nat by (apply nth_error_Some; congruence). apply (S j (length tab - 1)%nat); [lia|exact Ej|exact Ey].
Qed.

(** ** Strings *)

Lemma cstr_text s rest : text s -> cstr (s ++ 0 :: rest) = Some (s, rest).
Proof.
  intros T. induction T as [|b s Hb T IH]; [reflexivity|]. cbn [app cstr]. rewrite IH. replace (b =? 0) with false by lia. reflexivity.
Qed.

Lemma bytes_eqb_spec a : forall b, bytes_eqb a b = true <-> a = b.
Proof.
  induction a as [|x a IH]; intros [|y b]; cbn [bytes_eqb]; try (split; intros H; discriminate H || reflexivity).
  rewrite andb_true_iff, Z.eqb_eq, IH. split; [intros [-> ->]; reflexivity|intros H; injection H as -> ->; split; reflexivity].
Qed.

Definition pack (ss : list (list Z)) : list Z := concat (map (fun s => s ++ [0]) ss).

Lemma pack_cons s ss : pack (s :: ss) = s ++ 0 :: pack ss.
Proof. unfold pack. cbn [map concat]. rewrite <- app_assoc. reflexivity. Qed.

Lemma pack_app a b : pack (a ++ b) = pack a ++ pack b.
Proof. unfold pack. rewrite map_app, concat_app. reflexivity. Qed.

Lemma find_string_spec s ss : Forall text ss -> forall n o, (length ss < n)%nat ->
  match find_string n (pack ss) o s with
  | None => False
  | Some None => ~ In s ss
  | Some (Some i) => exists a b, ss = a ++ s :: b /\ ~ In s a /\ i = o + Z.of_nat (length (pack a))
  end.
Proof.
  intros F. induction F as [|t ss T F IH]; intros [|n] o Ln; cbn [length] in Ln; try lia; cbn [find_string].
  - cbn. tauto.
  - rewrite pack_cons. destruct (t ++ 0 :: pack ss) as [|x l] eqn:E; [destruct t; discriminate E|]. rewrite <- E. clear E x l.
    rewrite (cstr_text t _ T). destruct (bytes_eqb t s) eqn:B.
    + apply bytes_eqb_spec in B. subst t. exists [], ss. split; [reflexivity|]. split; [intros []|]. cbn. lia.
    + assert (NE : t <> s) by (intros X; apply bytes_eqb_spec in X; congruence).
      specialize (IH n (o + Z.of_nat (length t) + 1) ltac:(lia)).
      destruct (find_string n (pack ss) _ s) as [[i|]|]; [| |exact IH].
      * destruct IH as (a & b & -> & NI & ->). exists (t :: a), b. split; [reflexivity|].
        split; [intros [X|X]; [apply NE, X|apply NI, X]|]. rewrite pack_cons, app_length. cbn [length]. lia.
      * intros [X|X]; [apply NE, X|apply IH, X].
Qed.

(** The state of a table with strings [ss] (in order of addition, without the
    empty string in front) *)
Definition table_is (tab : list Z) (ss : list (list Z)) : Prop := Forall text ss /\ tab = pack ([] :: ss).

Lemma pack_length ss : (length ss <= length (pack ss))%nat.
Proof. induction ss as [|s ss IH]; [cbn; lia|]. rewrite pack_cons, app_length. cbn [length]. lia. Qed.

Lemma add_spec tab s ss : (tab = [] /\ ss = [] \/ table_is tab ss) -> text (added s) ->
  exists tab' i more, add_string tab s = Some (tab', i) /\ table_is tab' (ss ++ more) /\
    (forall a b, [] :: ss = a ++ added s :: b -> ~ In (added s) a -> i = Z.of_nat (length (pack a)) /\ more = []) /\
    (~ In (added s) ([] :: ss) -> more = [added s] /\ i = Z.of_nat (length (pack ([] :: ss)))).
Proof.
  intros I T. unfold add_string.
  set (tab1 := match tab with [] => [0] | _ => tab end).
  assert (I1 : Forall text ss /\ tab1 = pack ([] :: ss)).
  { unfold tab1. destruct I as [[-> ->]|[F ->]]; [split; [constructor|reflexivity]|]. split; [exact F|].
    rewrite pack_cons. reflexivity. }
  destruct I1 as [F E1]. destruct s as [s|]; cbn [added] in *.
  - assert (F' : Forall text ([] :: ss)) by (constructor; [constructor|exact F]).
    pose proof (find_string_spec s ([] :: ss) F' (S (length tab1)) 0) as FS. rewrite <- E1 in FS.
    assert (Lt : (length ([] :: ss) < S (length tab1))%nat) by (rewrite E1; pose proof (pack_length ([] :: ss)); lia).
    specialize (FS Lt). destruct (find_string _ tab1 0 s) as [[i|]|]; [| |destruct FS].
    + destruct FS as (a & b & E & NI & ->). exists tab1, (0 + Z.of_nat (length (pack a))), []. split; [reflexivity|].
      split; [rewrite app_nil_r; split; [exact F|exact E1]|]. split.
      * intros a' b' E' NI'. split; [|reflexivity]. rewrite E in E'.
        assert (a = a'); [|subst; lia]. clear - E' NI NI'. revert a' E' NI'. induction a as [|x a IH]; intros [|y a'] E NI'; cbn [app] in E.
        -- reflexivity.
        -- injection E as -> _. exfalso. apply NI'. left. reflexivity.
        -- injection E as <- _. exfalso. apply NI. left. reflexivity.
        -- injection E as -> E. f_equal. apply IH; [|exact E|]; intros X; [apply NI|apply NI']; right; exact X.
      * intros N. exfalso. apply N. rewrite E. apply in_elt.
    + destruct (length s =? 0)%nat eqn:L0.
      * exfalso. apply FS. left. destruct s; [reflexivity|discriminate L0].
      * exists (tab1 ++ s ++ [0]), (Z.of_nat (length tab1)), [s]. split; [reflexivity|]. split.
        -- split; [apply Forall_app; split; [exact F|constructor; [exact T|constructor]]|].
           rewrite E1. change ([] :: ss ++ [s]) with (([] :: ss) ++ [s]). rewrite pack_app, pack_cons. cbn. rewrite ?app_nil_r. reflexivity.
        -- split; [intros a b E _; exfalso; apply FS; rewrite E; apply in_elt|]. intros _. split; [reflexivity|rewrite E1; reflexivity].
  - exists tab1, 0, []. split; [reflexivity|]. split; [rewrite app_nil_r; split; [exact F|exact E1]|]. split.
    + intros [|x a] b E NI; cbn [app] in E; [split; reflexivity|]. injection E as <- _. exfalso. apply NI. left. reflexivity.
    + intros N. exfalso. apply N. left. reflexivity.
Qed.

Lemma in_first {s : list Z} {l} : In s l -> exists a b, l = a ++ s :: b /\ ~ In s a.
Proof.
  induction l as [|x l IH]; intros I; [destruct I|]. destruct (list_eq_dec Z.eq_dec x s) as [->|NE].
  - exists [], l. split; [reflexivity|intros []].
  - destruct I as [I|I]; [contradiction|]. destruct (IH I) as (a & b & -> & N). exists (x :: a), b. split; [reflexivity|].
    intros [X|X]; [apply NE, X|apply N, X].
Qed.

(** The index of a string in a table *)
Definition index_of (ss : list (list Z)) (s : list Z) (i : Z) : Prop :=
  exists a b, [] :: ss = a ++ s :: b /\ ~ In s a /\ i = Z.of_nat (length (pack a)).

Lemma index_of_more ss more s i : index_of ss s i -> index_of (ss ++ more) s i.
Proof.
  intros (a & b & E & N & ->). exists a, (b ++ more). split; [|split; [exact N|reflexivity]].
  change ([] :: ss ++ more) with (([] :: ss) ++ more). rewrite E, <- app_assoc. reflexivity.
Qed.

Lemma index_of_fun ss s i j : index_of ss s i -> index_of ss s j -> i = j.
Proof.
  intros (a & b & E & N & ->) (a' & b' & E' & N' & ->). rewrite E in E'. clear E.
  assert (a = a'); [|subst; reflexivity]. revert a' E' N'. induction a as [|x a IH]; intros [|y a'] E NI'; cbn [app] in E.
  - reflexivity.
  - injection E as -> _. exfalso. apply NI'. left. reflexivity.
  - injection E as <- _. exfalso. apply N. left. reflexivity.
  - injection E as -> E. f_equal. apply IH; [|exact E|]; intros X; [apply N|apply NI']; right; exact X.
Qed.

Lemma index_of_inj ss s t i : Forall text ss -> text s -> text t -> index_of ss s i -> index_of ss t i -> s = t.
Proof.
  intros F Ts Tt (a & b & E & N & ->) (a' & b' & E' & N' & L).
  assert (G : cstr (skipn (length (pack a)) (pack ([] :: ss))) = Some (s, pack b)).
  { rewrite E, pack_app, skipn_app, skipn_all, Nat.sub_diag. cbn [app skipn]. rewrite pack_cons. apply cstr_text, Ts. }
  assert (G' : cstr (skipn (length (pack a')) (pack ([] :: ss))) = Some (t, pack b')).
  { rewrite E', pack_app, skipn_app, skipn_all, Nat.sub_diag. cbn [app skipn]. rewrite pack_cons. apply cstr_text, Tt. }
  apply Nat2Z.inj in L. rewrite L, G' in G. congruence.
Qed.

Lemma add_index tab s ss : (tab = [] /\ ss = [] \/ table_is tab ss) -> text (added s) ->
  exists tab' i more, add_string tab s = Some (tab', i) /\ table_is tab' (ss ++ more) /\ index_of (ss ++ more) (added s) i /\
    (exists suffix, tab' = tab ++ suffix).
Proof.
  intros I T. destruct (add_spec tab s ss I T) as (tab' & i & more & A & TI & C1 & C2).
  exists tab', i, more. split; [exact A|]. split; [exact TI|].
  assert (Suf : exists suffix, tab' = tab ++ suffix).
  { destruct TI as [_ ->]. destruct I as [[-> ->]|[_ ->]]; [eexists; reflexivity|].
    change ([] :: ss ++ more) with (([] :: ss) ++ more). rewrite pack_app. eexists. reflexivity. }
  split; [|exact Suf].
  destruct (in_dec (list_eq_dec Z.eq_dec) (added s) ([] :: ss)) as [In0|NI].
  - destruct (in_first In0) as (a & b & E & N). destruct (C1 a b E N) as [-> ->]. rewrite app_nil_r. exists a, b. repeat split; assumption.
  - destruct (C2 NI) as [-> ->]. exists ([] :: ss), []. repeat split. exact NI.
Qed.

Definition table_ok (tab : list Z) (ss : list (list Z)) : Prop := tab = [] /\ ss = [] \/ table_is tab ss.

Lemma additions_spec ops : forall tab ss, table_ok tab ss -> Forall (fun s => text (added s)) ops ->
  exists tab' is more, additions tab ops = Some (tab', is) /\ table_ok tab' (ss ++ more) /\
    Forall2 (fun s i => index_of (ss ++ more) (added s) i) ops is /\ (exists suffix, tab' = tab ++ suffix).
Proof.
  induction ops as [|s ops IH]; intros tab ss I F; cbn [additions].
  - exists tab, [], []. split; [reflexivity|]. rewrite app_nil_r. split; [exact I|]. split; [constructor|]. exists []. rewrite app_nil_r. reflexivity.
  - apply Forall_cons_iff in F. destruct F as [T F]. destruct (add_index tab s ss I T) as (tab1 & i & more & -> & TI & Ix & (suf & Es)).
    destruct (IH tab1 (ss ++ more) (or_intror TI) F) as (tab2 & is & more2 & -> & TI2 & Ixs & (suf2 & Es2)).
    exists tab2, (i :: is), (more ++ more2). split; [reflexivity|]. rewrite app_assoc. split; [exact TI2|].
    split; [constructor; [apply index_of_more, Ix|exact Ixs]|]. exists (suf ++ suf2). rewrite Es2, Es, app_assoc. reflexivity.
Qed.

Lemma string_table_ok tab : string_table tab <-> exists ss, table_ok tab ss.
Proof.
  split.
  - intros [->|(ss & F & ->)]; [exists []; left; split; reflexivity|exists ss; right; split; [exact F|reflexivity]].
  - intros (ss & [[-> _]|[F ->]]); [left; reflexivity|right; exists ss; split; [exact F|reflexivity]].
Qed.

Lemma index_at tab ss s i : table_ok tab ss -> text s -> tab <> [] -> index_of ss s i ->
  string_at tab i s /\ get_string tab i = Some s.
Proof.
  intros [[-> _]|[F ->]] T NE (a & b & E & N & ->); [contradiction|]. split.
  - exists (pack a), (pack b). split; [|reflexivity]. rewrite E, pack_app, pack_cons. reflexivity.
  - unfold get_string. rewrite Nat2Z.id, E, pack_app. 
    replace (Z.of_nat (length (pack a)) <? Z.of_nat (length (pack a ++ pack (s :: b)))) with true.
    2:{ rewrite app_length, pack_cons, app_length. cbn [length]. lia. }
    rewrite skipn_app, skipn_all, Nat.sub_diag. cbn [app skipn]. rewrite pack_cons, (cstr_text s _ T). reflexivity.
Qed.
