(** Set constructors and the operators of constant sets. *)

From Coq Require Import ZArith Bool List Lia ZifyBool.
From Verif Require Import Words State ExprModel StmtModel ExprSpec ConstModel ConstSpec ConstBits LongProofs.
Import ListNotations.
Open Scope Z_scope.

(** ** Operators *)

Lemma set_words_ok lo f l : set_words lo f l <-> words_ok l /\ forall k, 0 <= k < 64 -> bit l k = f (lo + k).
Proof. unfold set_words, words_ok, bit. tauto. Qed.

Lemma map_words_ok lo f g h op a b :
  (forall x y, 0 <= x <= 65535 -> 0 <= y <= 65535 -> 0 <= op y x <= 65535) ->
  (forall x y j z, 0 <= x <= 65535 -> 0 <= y <= 65535 -> 0 <= j < 16 -> Z.testbit x j = f z -> Z.testbit y j = g z -> Z.testbit (op y x) j = h z) ->
  set_words lo f a -> set_words lo g b -> set_words lo h (map_words op a b).
Proof.
  intros R B (La & Wa & Ba) (Lb & Wb & Bb).
  destruct (four _ La) as (a0 & a1 & a2 & a3 & ->). destruct (four _ Lb) as (b0 & b1 & b2 & b3 & ->).
  repeat match goal with H : Forall _ (_ :: _) |- _ => apply Forall_cons_iff in H; destruct H end.
  split; [reflexivity|]. split.
  - cbn. repeat (apply Forall_cons; [apply R; assumption|]). apply Forall_nil.
  - intros k K. specialize (Ba k K). specialize (Bb k K). unfold map_words.
    assert (J : 0 <= k mod 16 < 16) by (apply Z.mod_pos_bound; lia).
    assert (C : k / 16 = 0 \/ k / 16 = 1 \/ k / 16 = 2 \/ k / 16 = 3) by lia.
    destruct C as [C|[C|[C|C]]]; rewrite C in *; cbn [combine map nth Z.to_nat Pos.to_nat Pos.iter_op Nat.add fst snd] in *;
      (eapply B; [| |exact J|exact Ba|exact Bb]); assumption.
Qed.
Lemma bits16 x : 0 <= x <= 65535 <-> x = x mod 2 ^ 16.
Proof. change (2 ^ 16) with 65536. lia. Qed.
Lemma lor16 x y : 0 <= x <= 65535 -> 0 <= y <= 65535 -> 0 <= Z.lor x y <= 65535.
Proof.
  rewrite !bits16. rewrite <- !Z.land_ones by lia. intros X Y. rewrite Z.land_lor_distr_l, <- X, <- Y. reflexivity.
Qed.
Lemma lxor16 x y : 0 <= x <= 65535 -> 0 <= y <= 65535 -> 0 <= Z.lxor x y <= 65535.
Proof.
  rewrite !bits16. rewrite <- !Z.land_ones by lia. intros X Y. apply Z.bits_inj'. intros n N.
  rewrite Z.land_spec, Z.lxor_spec. rewrite X at 1. rewrite Y at 1. rewrite X at 2. rewrite Y at 2. rewrite !Z.land_spec.
  destruct (Z.testbit x n), (Z.testbit y n), (Z.testbit (Z.ones 16) n); reflexivity.
Qed.

Lemma union_ok lo f g a b : set_words lo f a -> set_words lo g b -> set_words lo (fun z => f z || g z) (set_union a b).
Proof.
  apply map_words_ok; [intros; apply lor16; assumption|]. intros x y j z _ _ _ X Y. rewrite Z.lor_spec, X, Y. apply orb_comm.
Qed.
Lemma symmetric_ok lo f g a b : set_words lo f a -> set_words lo g b -> set_words lo (fun z => xorb (f z) (g z)) (set_symmetric a b).
Proof.
  apply map_words_ok; [intros; apply lxor16; assumption|]. intros x y j z _ _ _ X Y. rewrite Z.lxor_spec, X, Y. apply xorb_comm.
Qed.

(** ** Tokens *)

Definition at_toks (c : comp) (ts : list tok) : comp :=
  mkComp ts (out c) (errs c) (g_label c) (g_level c) (g_continue c) (g_break c) (g_adjust c).
Lemma at_self c ts : toks c = ts -> c = at_toks c ts.
Proof. intros <-. destruct c. reflexivity. Qed.
Definition st_at (c : comp) (ts : list tok) (t i : Z) (l : list Z) : cst := mkK (at_toks c ts) t i l.
Lemma st_self s ts : toks (kc s) = ts -> s = st_at (kc s) ts (ktok s) (kint s) (kset s).
Proof. intros H. destruct s as [c t i l]. unfold st_at. cbn in *. f_equal. apply at_self. exact H. Qed.
Lemma knext_at c x ts t i l : knext (st_at c (x :: ts) t i l) = st_at c ts t i l.
Proof. reflexivity. Qed.
Lemma ktoken_at c x ts t i l : ktoken (st_at c (x :: ts) t i l) = tk x.
Proof. reflexivity. Qed.
Lemma kcur_at c x ts t i l : kcur (st_at c (x :: ts) t i l) = x.
Proof. reflexivity. Qed.
Lemma with_set_at c ts t i l m : with_set m (st_at c ts t i l) = st_at c ts t i m.
Proof. reflexivity. Qed.
Lemma constant_at c ts t i l t' i' : constant t' i' (st_at c ts t i l) = st_at c ts t' i' l.
Proof. reflexivity. Qed.

(** ** Set constructors *)

Lemma lit_element lo t a z : spells_lit t a -> element_of lo a = Some z -> is_true a = false ->
  ordinal_token (tk t) = true /\ u16 (tval t) = z /\ in16 lo z.
Proof.
  unfold element_of. intros S E T. destruct (ordinal a) as [o|] eqn:O; [|discriminate E]. cbn in E.
  destruct (in_base lo o) eqn:B; [|discriminate E]. assert (o = z) by congruence. subst o. apply in_base_16 in B.
  split; [|split; [|exact B]].
  - destruct a; cbn in S; try (destruct S as (-> & _)); try rewrite S; reflexivity.
  - destruct B as (_ & B). destruct a; cbn in S, O; try discriminate O; destruct S as (_ & ->).
    + assert (n = z) by congruence. subst. unfold u16. apply Z.mod_small. lia.
    + assert (n = z) by congruence. subst. unfold u16. apply Z.mod_small. lia.
    + cbn in T. subst b. assert (0 = z) by congruence. subst. reflexivity.
Qed.
Lemma lit_kind t u a b : spells_lit t a -> spells_lit u b -> same_kind a b = true -> tk u = tk t.
Proof.
  intros S T K. destruct a, b; try discriminate K; cbn in S, T; intuition congruence.
Qed.

(** [rest] does not start with a range. *)
Definition no_range (rest : list tok) : Prop := tk (hd eoftok rest) <> tSUBRANGE.

Lemma subset_run lo ts x p c rest t i l before :
  gsubset ts x -> bounds lo x = Some p -> no_range rest -> words_ok l ->
  (forall k, 0 <= k < 64 -> bit l k = true -> exists q, In q before /\ fst q <= k <= snd q) ->
  (match x with
   | One y => negb (is_true y)
   | Range y z => negb (is_true y) && negb (is_true z) && good_range (fst p - lo) (snd p - lo) &&
                  forallb (fun q => apart (fst p - lo) (snd p - lo) (fst q) (snd q)) before
   end = true) ->
  exists l', subset lo (st_at c (ts ++ rest) t i l) = KDone (st_at c rest t i l') /\ words_ok l' /\
    forall k, 0 <= k < 64 -> bit l' k = ((fst p - lo <=? k) && (k <=? snd p - lo)) || bit l k.
Proof.
  intros G B N W Bf C. destruct G as [tt a S|tt a d u b S D T K].
  - cbn [bounds] in B. destruct (element_of lo a) as [z|] eqn:E; [|discriminate B]. cbn in B. injection B as <-.
    apply negb_true_iff in C. destruct (lit_element _ _ _ _ S E C) as (O & U & I16).
    unfold subset. cbn [app]. rewrite ktoken_at, kcur_at, knext_at, O, U. cbn [negb].
    destruct (element_added lo z l W I16) as (l' & A & W' & P). exists l'. cbn [fst snd].
    split; [|split; [exact W'|]].
    + unfold ktoken, token, cur, st_at, kc, at_toks, toks, kset. destruct (Z.eqb_spec (tk (hd eoftok rest)) tSUBRANGE) as [Q|_]; [destruct (N Q)|].
      rewrite A. reflexivity.
    + intros k Hk. rewrite P by exact Hk. f_equal. lia.
  - cbn [bounds] in B. destruct (element_of lo a) as [y|] eqn:E; [|discriminate B]. cbn in B.
    destruct (element_of lo b) as [z|] eqn:E'; [|discriminate B]. cbn in B. injection B as <-. cbn [fst snd] in *.
    apply andb_true_iff in C. destruct C as (C & C4). apply andb_true_iff in C. destruct C as (C & C3).
    apply andb_true_iff in C. destruct C as (C1 & C2). apply negb_true_iff in C1, C2.
    destruct (lit_element _ _ _ _ S E C1) as (O & U & Iy). destruct (lit_element _ _ _ _ T E' C2) as (_ & U' & Iz).
    unfold subset. cbn [app]. rewrite !ktoken_at, !kcur_at, !knext_at, !ktoken_at, !kcur_at, O, U, U', D. cbn [negb]. rewrite Z.eqb_refl.
    rewrite (lit_kind _ _ _ _ S T K), Z.eqb_refl. cbn [negb].
    destruct (range_added lo y z l W Iy Iz C3) as (l' & A & W' & P).
    { intros k Hk Q. destruct (bit l k) eqn:Bk; [|reflexivity]. exfalso. destruct (Bf k Hk Bk) as (q & Iq & Kq).
      rewrite forallb_forall in C4. specialize (C4 q Iq). unfold apart in C4.
      assert ((fst q) / 16 <= k / 16 <= (snd q) / 16) by (split; apply Z.div_le_mono; lia). lia. }
    exists l'. cbn [kset st_at]. rewrite A. cbn [bindl]. split; [reflexivity|]. split; [exact W'|exact P].
Qed.

Lemma subsets_run ts xs : gsubsets ts xs -> forall lo m c rest t i l before,
  members lo xs = Some m -> tk (hd eoftok rest) <> tCOMMA -> no_range rest -> words_ok l ->
  (forall k, 0 <= k < 64 -> bit l k = true -> exists q, In q before /\ fst q <= k <= snd q) ->
  good_parts lo before xs = true ->
  exists l' N, (forall n, (N <= n)%nat -> subsets n lo (st_at c (ts ++ rest) t i l) = KDone (st_at c rest t i l')) /\ words_ok l' /\
    forall k, 0 <= k < 64 -> bit l' k = m (lo + k) || bit l k.
Proof.
  induction 1 as [ts x G|ts x d us xs G D Gs IH]; intros lo m c rest t i l before M Nc Nr W Bf Gd; cbn [members good_parts] in M, Gd.
  - destruct (bounds lo x) as [p|] eqn:B; [|discriminate M]. cbn in M. injection M as <-.
    apply andb_true_iff in Gd. destruct Gd as (Gd & _).
    destruct (subset_run lo ts x p c rest t i l before G B Nr W Bf Gd) as (l' & E & W' & P).
    exists l', 1%nat. split; [|split; [exact W'|]].
    + intros n Hn. destruct n; [lia|]. cbn [subsets]. rewrite E. cbn [bindk]. unfold ktoken, token, cur, st_at, kc, at_toks, toks.
      destruct (Z.eqb_spec (tk (hd eoftok rest)) tCOMMA) as [Q|_]; [destruct (Nc Q)|reflexivity].
    + intros k K. rewrite P by exact K. rewrite orb_false_r. f_equal. lia.
  - destruct (bounds lo x) as [p|] eqn:B; [|discriminate M]. cbn in M. destruct (members lo xs) as [m'|] eqn:M'; [|discriminate M]. cbn in M. injection M as <-.
    apply andb_true_iff in Gd. destruct Gd as (Gd & Gd').
    rewrite <- app_assoc. cbn [app].
    destruct (subset_run lo ts x p c (d :: us ++ rest) t i l before G B) as (l1 & E & W1 & P1); [|exact W|exact Bf|exact Gd|].
    { unfold no_range. cbn [hd]. rewrite D. discriminate. }
    destruct (IH lo m' c rest t i l1 ((fst p - lo, snd p - lo) :: before) M' Nc Nr W1) as (l' & N & R & W' & P); [|exact Gd'|].
    { intros k K Bk. rewrite P1 in Bk by exact K. destruct (bit l k) eqn:Q.
      - destruct (Bf k K Q) as (q & Iq & Kq). exists q. split; [right; exact Iq|exact Kq].
      - exists (fst p - lo, snd p - lo). split; [left; reflexivity|]. cbn [fst snd]. lia. }
    exists l', (S N). split; [|split; [exact W'|]].
    + intros n Hn. destruct n; [lia|]. cbn [subsets]. rewrite E. cbn [bindk]. rewrite ktoken_at, knext_at, D, Z.eqb_refl. apply R. lia.
    + intros k K. rewrite P, P1 by exact K. destruct (m' (lo + k)), (bit l k); rewrite ?orb_true_r, ?orb_false_r; cbn; try lia; f_equal; lia.
Qed.

Lemma empty_ok lo : set_words lo (fun _ => false) [0; 0; 0; 0].
Proof.
  split; [reflexivity|]. split; [repeat (apply Forall_cons; [lia|]); apply Forall_nil|].
  intros k K. assert (C : k / 16 = 0 \/ k / 16 = 1 \/ k / 16 = 2 \/ k / 16 = 3) by lia.
  destruct C as [C|[C|[C|C]]]; rewrite C; apply Z.testbit_0_l.
Qed.

Lemma constructor_run ts xs a b lo m c rest t i l : tk a = tLBRACKET -> tk b = tRBRACKET ->
  (ts = [] /\ xs = [] \/ gsubsets ts xs) -> members lo xs = Some m -> good_parts lo [] xs = true ->
  exists l' N, (forall n, (N <= n)%nat -> set_constructor n lo (st_at c (a :: ts ++ b :: rest) t i l) = KDone (st_at c rest tSET_CONST i l')) /\
    set_words lo m l'.
Proof.
  intros A B G M Gd. destruct G as [(-> & ->)|G].
  - exists [0; 0; 0; 0], O. cbn in M. injection M as <-. split; [|apply empty_ok].
    intros n _. unfold set_constructor. cbn [app]. rewrite with_set_at, knext_at, ktoken_at, B, Z.eqb_refl, knext_at. reflexivity.
  - destruct (subsets_run ts xs G lo m c (b :: rest) t i [0; 0; 0; 0] [] M) as (l' & N & R & W & P).
    + cbn. rewrite B. discriminate.
    + unfold no_range. cbn. rewrite B. discriminate.
    + apply (proj1 (set_words_ok lo (fun _ => false) [0; 0; 0; 0])). apply empty_ok.
    + intros k K Q. destruct (proj1 (set_words_ok lo (fun _ => false) [0; 0; 0; 0]) (empty_ok lo)) as (_ & E). rewrite E in Q by exact K. discriminate.
    + exact Gd.
    + exists l', N. split.
      * intros n Hn. unfold set_constructor. rewrite with_set_at, knext_at.
        assert (Q : ktoken (st_at c (ts ++ b :: rest) t i [0; 0; 0; 0]) =? tRBRACKET = false).
        { assert (S : exists u us, ts = u :: us /\ ordinal_token (tk u) = true).
          { assert (L : forall t a, spells_lit t a -> ordinal_token (tk t) = true).
            { intros u v S. destruct v; cbn in S; try (destruct S as (-> & _)); try rewrite S; reflexivity. }
            destruct G as [ts x [u v S|u v d w y S]|ts x d us xs [u v S|u v d' w y S]]; cbn [app]; do 2 eexists; (split; [reflexivity|]); eapply L; exact S. }
          destruct S as (u & us & -> & O). cbn [app]. rewrite ktoken_at. destruct (Z.eqb_spec (tk u) tRBRACKET) as [Q|_]; [|reflexivity].
          rewrite Q in O. discriminate O. }
        rewrite Q, R by exact Hn. cbn [bindk]. rewrite ktoken_at, B, Z.eqb_refl, knext_at. reflexivity.
      * apply set_words_ok. split; [exact W|]. intros k K. rewrite P by exact K.
        destruct (proj1 (set_words_ok lo (fun _ => false) [0; 0; 0; 0]) (empty_ok lo)) as (_ & E). rewrite E by exact K. apply orb_false_r.
Qed.
