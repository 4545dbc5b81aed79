(** Symbol resolution in the linker. *)

From Coq Require Import ZArith Bool List Lia ZifyBool Sorted Permutation.
From Verif Require Import Words Opcodes Machine EncodeModel FinalModel FinalProofs LinkModel LinkSpec.
Import ListNotations.
Open Scope Z_scope.

(** ** The order *)

Lemma sc_eq a : forall b, str_compare a b = Eq <-> a = b.
Proof.
  induction a as [|x a IH]; intros [|y b]; cbn [str_compare]; try (split; [discriminate|intros H; discriminate H]); [tauto|].
  destruct (x ?= y) eqn:E; try (split; [discriminate|intros H; injection H as -> _; rewrite Z.compare_refl in E; discriminate E]).
  apply Z.compare_eq in E. subst y. rewrite IH. split; [intros ->; reflexivity|intros H; injection H as ->; reflexivity].
Qed.

Lemma sc_sym a : forall b, str_compare b a = CompOpp (str_compare a b).
Proof.
  induction a as [|x a IH]; intros [|y b]; cbn [str_compare]; try reflexivity.
  rewrite (Z.compare_antisym x y). destruct (x ?= y); cbn [CompOpp]; [apply IH|reflexivity|reflexivity].
Qed.

Lemma sc_trans a : forall b c, str_compare a b = Lt -> str_compare b c = Lt -> str_compare a c = Lt.
Proof.
  induction a as [|x a IH]; intros [|y b] [|z c]; cbn [str_compare]; try discriminate; try reflexivity.
  destruct (x ?= y) eqn:E1; destruct (y ?= z) eqn:E2; try discriminate; intros H1 H2.
  - apply Z.compare_eq in E1, E2. subst. rewrite Z.compare_refl. apply (IH b c H1 H2).
  - apply Z.compare_eq in E1. subst. rewrite E2. reflexivity.
  - apply Z.compare_eq in E2. subst. rewrite E1. reflexivity.
  - rewrite Z.compare_lt_iff in E1, E2. replace (x ?= z) with Lt by (symmetry; apply Z.compare_lt_iff; lia). reflexivity.
Qed.

Definition klt (a b : container) : Prop :=
  str_compare (lname (snd a)) (lname (snd b)) = Lt \/
  (lname (snd a) = lname (snd b) /\ ltype (snd a) < ltype (snd b)).

Definition skey (a b : lsym) : Prop := same_symbol a b.

Lemma klt_trans a b c : klt a b -> klt b c -> klt a c.
Proof.
  unfold klt. intros [A|[A A']] [B|[B B']].
  - left. apply (sc_trans _ _ _ A B).
  - left. rewrite <- B. exact A.
  - left. rewrite A. exact B.
  - right. split; [congruence|lia].
Qed.

Lemma klt_irrefl a b : klt a b -> same_symbol (snd a) (snd b) -> False.
Proof.
  unfold klt, same_symbol. intros [A|[A A']] [B C]; [|lia].
  assert (E : str_compare (lname (snd a)) (lname (snd b)) = Eq) by (apply sc_eq, B). congruence.
Qed.

Lemma klt_key a a' b b' : same_symbol (snd a) (snd a') -> same_symbol (snd b) (snd b') -> klt a b -> klt a' b'.
Proof. unfold klt, same_symbol. intros [-> ->] [-> ->]. tauto. Qed.

Lemma undef_spec_b s : is_undefined s = false <-> defined s.
Proof. unfold is_undefined, defined, STF_UNDEFINED. rewrite land1. destruct (Z.odd (lflags s)); cbn; split; congruence. Qed.

(** ** Insertion *)

(** The container after merging a symbol of the same name and type *)
Definition merged (c s : lsym) : lsym :=
  if is_undefined c then if is_undefined s then c else mkLsym (lname c) (ltype s) (lflags s) (lvalue s) else c.

Definition sorted := StronglySorted klt.

Lemma insert_spec fresh s : forall l l' id m, sorted l -> insert_symbol fresh s l = (l', id, m) ->
  sorted l' /\
  (((forall x, In x l -> ~ same_symbol (snd x) s) /\ id = fresh /\ m = false /\
     (forall x, In x l' <-> x = (fresh, s) \/ In x l)) \/
   (exists c, In (id, c) l /\ same_symbol c s /\ m = negb (is_undefined c) && negb (is_undefined s) /\
     (forall x, In x l' <-> x = (id, merged c s) \/ (In x l /\ ~ same_symbol (snd x) s)))).
Proof.
  induction l as [|[k c] t IH]; intros l' id m S H; cbn [insert_symbol] in H.
  - injection H as <- <- <-. split; [constructor; constructor|]. left.
    split; [intros x []|]. split; [reflexivity|]. split; [reflexivity|]. intros x. cbn [In]. intuition.
  - apply StronglySorted_inv in S. destruct S as [St Sf]. rewrite Forall_forall in Sf.
    assert (HERE : klt (fresh, s) (k, c) -> ((fresh, s) :: (k, c) :: t, fresh, false) = (l', id, m) ->
      sorted l' /\
      (((forall x, In x ((k, c) :: t) -> ~ same_symbol (snd x) s) /\ id = fresh /\ m = false /\
       (forall x, In x l' <-> x = (fresh, s) \/ In x ((k, c) :: t))) \/
       (exists c0, In (id, c0) ((k, c) :: t) /\ same_symbol c0 s /\ m = negb (is_undefined c0) && negb (is_undefined s) /\
       (forall x, In x l' <-> x = (id, merged c0 s) \/ (In x ((k, c) :: t) /\ ~ same_symbol (snd x) s))))).
    { intros K E. injection E as <- <- <-.
      assert (B : forall x, In x ((k, c) :: t) -> klt (fresh, s) x).
      { intros x [<-|I]; [exact K|]. apply (klt_trans _ _ _ K). apply Sf, I. }
      split.
      - constructor; [constructor; [exact St|apply Forall_forall; exact Sf]|]. apply Forall_forall. exact B.
      - left. split; [|split; [reflexivity|split; [reflexivity|]]].
        + intros x I SS. apply (klt_irrefl _ _ (B x I)). destruct SS. split; cbn; congruence.
        + intros x. cbn [In]. intuition. }
    assert (LATER : klt (k, c) (fresh, s) ->
      (let '(t', r, m) := insert_symbol fresh s t in ((k, c) :: t', r, m)) = (l', id, m) ->
      sorted l' /\
      (((forall x, In x ((k, c) :: t) -> ~ same_symbol (snd x) s) /\ id = fresh /\ m = false /\
       (forall x, In x l' <-> x = (fresh, s) \/ In x ((k, c) :: t))) \/
       (exists c0, In (id, c0) ((k, c) :: t) /\ same_symbol c0 s /\ m = negb (is_undefined c0) && negb (is_undefined s) /\
       (forall x, In x l' <-> x = (id, merged c0 s) \/ (In x ((k, c) :: t) /\ ~ same_symbol (snd x) s))))).
    { intros K E. destruct (insert_symbol fresh s t) as [[t' r] m'] eqn:EI. injection E as <- <- <-.
      destruct (IH _ _ _ St eq_refl) as (S' & D).
      assert (NK : ~ same_symbol c s) by (intros SS; apply (klt_irrefl _ _ K); exact SS).
      destruct D as [(D1 & D2 & D3 & D4)|(c0 & D1 & D2 & D3 & D4)].
      - split.
        + constructor; [exact S'|]. apply Forall_forall. intros x I. apply D4 in I. destruct I as [->|I]; [exact K|apply Sf, I].
        + left. split; [|split; [exact D2|split; [exact D3|]]].
          * intros x [<-|I]; [exact NK|apply D1, I].
          * intros x. cbn [In]. rewrite D4. tauto.
      - split.
        + constructor; [exact S'|]. apply Forall_forall. intros x I. apply D4 in I. destruct I as [->|[I _]]; [|apply Sf, I].
          apply (klt_key (k, c) (k, c) (r, c0)); [split; reflexivity| |apply Sf, D1].
          cbn [snd]. unfold merged. destruct (is_undefined c0); [|split; reflexivity].
          destruct (is_undefined s); [split; reflexivity|]. destruct D2. split; cbn [lname ltype]; [reflexivity|assumption].
        + right. exists c0. split; [right; exact D1|]. split; [exact D2|]. split; [exact D3|].
          intros x. cbn [In]. rewrite D4. split.
          * intros [<-|[->|[I N]]]; [right; split; [left; reflexivity|exact NK]|left; reflexivity|right; split; [right; exact I|exact N]].
          * intros [->|[[<-|I] N]]; [right; left; reflexivity|left; reflexivity|right; right; split; assumption]. }
    destruct (str_compare (lname c) (lname s)) eqn:C.
    + assert (EN : lname c = lname s) by (apply sc_eq, C).
      destruct (ltype s <? ltype c) eqn:T1.
      * apply (HERE); [|exact H]. right. cbn [snd]. split; [congruence|lia].
      * destruct (ltype c =? ltype s) eqn:T2.
        -- assert (SS : same_symbol c s) by (split; [exact EN|lia]).
           assert (NT : forall x, In x t -> ~ same_symbol (snd x) s).
           { intros x I X. apply (klt_irrefl _ _ (Sf x I)). destruct SS, X. split; cbn [snd]; congruence. }
           assert (G : l' = (k, merged c s) :: t /\ id = k /\ m = negb (is_undefined c) && negb (is_undefined s)).
           { unfold merged. destruct (is_undefined c) eqn:U1.
             - destruct (is_undefined s); injection H as <- <- <-; repeat split.
             - injection H as <- <- <-. repeat split. }
           destruct G as (-> & -> & ->). split.
           ++ constructor; [exact St|]. apply Forall_forall. intros x I.
              apply (klt_key (k, c) (k, merged c s) x x); [|split; reflexivity|apply Sf, I].
              cbn [snd]. unfold merged. destruct (is_undefined c); [|split; reflexivity].
              destruct (is_undefined s); [split; reflexivity|]. destruct SS. split; cbn [lname ltype]; [reflexivity|assumption].
           ++ right. exists c. split; [left; reflexivity|]. split; [exact SS|]. split; [reflexivity|].
              intros x. cbn [In]. split.
              ** intros [<-|I]; [left; reflexivity|right; split; [right; exact I|apply NT, I]].
              ** intros [->|[[<-|I] N]]; [left; reflexivity|contradiction|right; exact I].
        -- apply LATER; [|exact H]. right. cbn [snd]. split; [exact EN|lia].
    + apply LATER; [|exact H]. left. exact C.
    + apply HERE; [|exact H]. left. cbn [snd]. rewrite sc_sym, C. reflexivity.
Qed.

(** ** The invariant *)

(** Some symbol is defined twice in [L] *)
Definition twice (L : list lsym) : Prop :=
  exists a s b t c, L = a ++ s :: b ++ t :: c /\ same_symbol s t /\ defined s /\ defined t.

Record inv (L : list lsym) (st : symst) : Prop := {
  i_sorted : sorted (s_list st);
  i_fresh : forall id c, In (id, c) (s_list st) -> (id < s_next st)%nat;
  i_ids : forall id c c', In (id, c) (s_list st) -> In (id, c') (s_list st) -> c = c';
  i_key : forall s, In s L -> exists id c, In (id, c) (s_list st) /\ same_symbol c s;
  i_src : forall id c, In (id, c) (s_list st) -> In c L;
  i_def : forall id c, In (id, c) (s_list st) -> is_undefined c = true ->
            forall s, In s L -> same_symbol s c -> is_undefined s = true;
  i_len : length (s_index st) = length L;
  i_at : forall i s, nth_error L i = Some s ->
            exists id c, nth_error (s_index st) i = Some id /\ In (id, c) (s_list st) /\ same_symbol c s;
  i_alloc : L <> [] -> Z.of_nat (length L) <= s_alloc st;
  i_multi : 0 <= s_multi st /\ (s_multi st <> 0 <-> twice L) }.

Lemma inv0 : inv [] symst0.
Proof.
  constructor; cbn; try (intros; contradiction); try reflexivity.
  - constructor.
  - intros [|i] s H; discriminate H.
  - split; [lia|]. split; [lia|]. intros (a & s & b & t & c & E & _). destruct a; discriminate E.
Qed.

Lemma sorted_unique l x y : sorted l -> In x l -> In y l -> same_symbol (snd x) (snd y) -> x = y.
Proof.
  induction l as [|z l IH]; intros S; [intros []|]. apply StronglySorted_inv in S. destruct S as [S F]. rewrite Forall_forall in F.
  intros [<-|I] [<-|J] K.
  - reflexivity.
  - exfalso. apply (klt_irrefl _ _ (F y J) K).
  - exfalso. apply (klt_irrefl _ _ (F x I)). destruct K. split; congruence.
  - apply IH; assumption.
Qed.

Lemma same_sym a b : same_symbol a b -> same_symbol b a.
Proof. intros [A B]. split; congruence. Qed.

Lemma same_trans a b c : same_symbol a b -> same_symbol b c -> same_symbol a c.
Proof. intros [A B] [C D]. split; congruence. Qed.

Lemma twice_snoc L s : twice (L ++ [s]) <-> twice L \/ (defined s /\ exists d, In d L /\ same_symbol d s /\ defined d).
Proof.
  split.
  - intros (a & x & b & y & c & E & K & D1 & D2). rewrite app_comm_cons, app_assoc in E.
    destruct (snoc_split _ _ _ _ _ E) as [(-> & E' & ->)|(c' & -> & E')].
    + right. split; [exact D2|]. exists x. split; [rewrite <- E'; apply in_elt|]. split; assumption.
    + left. exists a, x, b, y, c'. rewrite E', <- app_assoc. repeat split; try assumption; apply K.
  - intros [(a & x & b & y & c & -> & K & D1 & D2)|(D & d & I & K & D')].
    + exists a, x, b, y, (c ++ [s]). rewrite <- app_assoc. cbn [app]. rewrite <- app_assoc. repeat split; try assumption; apply K.
    + apply in_split in I. destruct I as (a & b & ->). exists a, d, b, s, []. rewrite <- app_assoc. repeat split; try assumption; apply K.
Qed.

Lemma undef_iff s : is_undefined s = true <-> ~ defined s.
Proof. rewrite <- undef_spec_b. destruct (is_undefined s); split; congruence. Qed.

Lemma merged_key c s : same_symbol c s -> same_symbol (merged c s) s.
Proof. intros [A B]. unfold merged. destruct (is_undefined c), (is_undefined s); split; cbn; auto. Qed.

Lemma merged_src c s : same_symbol c s -> merged c s = c \/ merged c s = s.
Proof.
  intros [A B]. unfold merged. destruct (is_undefined c); [|left; reflexivity]. destruct (is_undefined s); [left; reflexivity|].
  right. destruct s as [n t f v], c as [n' t' f' v']. cbn in *. congruence.
Qed.

Lemma insert_inv L st s l' id m st'' :
  inv L st -> insert_symbol (s_next st) s (s_list st) = (l', id, m) ->
  add_to_list (mkSst l' (s_index st) (s_alloc st) (s_multi st + (if m then 1 else 0)) (S (s_next st))) id (Z.of_nat (length L)) = LOk st'' ->
  inv (L ++ [s]) st''.
Proof.
  intros [Hso Hfr Hid Hke Hsr Hde Hle Hat Hal [Hm1 Hm2]] HI HA.
  destruct (insert_spec _ _ _ _ _ _ Hso HI) as (S' & D).
  unfold add_to_list in HA. cbn [s_index s_alloc s_list s_multi s_next] in HA.
  set (a1 := if (length (s_index st) =? 0)%nat then 1024 else s_alloc st) in *.
  set (a2 := if a1 <? Z.of_nat (length L) + 1 then a1 + 256 else a1) in *.
  destruct (a2 <? Z.of_nat (length L) + 1) eqn:Ea; [discriminate HA|].
  replace (Z.of_nat (length L) =? Z.of_nat (length (s_index st))) with true in HA by lia.
  injection HA as <-.
  (* facts about the new list *)
  assert (NK : exists c, In (id, c) l' /\ same_symbol c s /\ (is_undefined c = true ->
      is_undefined s = true /\ forall x, In x L -> same_symbol x s -> is_undefined x = true)).
  { destruct D as [(D1 & D2 & D3 & D4)|(c & D1 & D2 & D3 & D4)].
    - exists s. split; [rewrite D4; left; congruence|]. split; [split; reflexivity|]. intros U. split; [exact U|].
      intros x I K. exfalso. destruct (Hke x I) as (i0 & c0 & I0 & K0). apply (D1 _ I0). apply (same_trans _ _ _ K0 K).
    - exists (merged c s). split; [rewrite D4; left; reflexivity|]. split; [apply merged_key, D2|].
      unfold merged. destruct (is_undefined c) eqn:Uc; [|intros U; rewrite U in Uc; discriminate Uc].
      destruct (is_undefined s) eqn:Us.
      + intros _. split; [reflexivity|]. intros x I K. apply (Hde id c D1 Uc x I). apply (same_trans _ _ _ K), same_sym, D2.
      + intros U. unfold is_undefined in U, Us. cbn [lflags] in U. congruence. }
  (* old containers survive, up to merging *)
  assert (OLD : forall i c, In (i, c) (s_list st) -> exists c', In (i, c') l' /\ same_symbol c' c).
  { intros i c I. destruct D as [(D1 & D2 & D3 & D4)|(c0 & D1 & D2 & D3 & D4)].
    - exists c. split; [rewrite D4; right; exact I|split; reflexivity].
    - assert (DEC : same_symbol c s \/ ~ same_symbol c s).
      { unfold same_symbol. destruct (list_eq_dec Z.eq_dec (lname c) (lname s)); [|tauto]. destruct (Z.eq_dec (ltype c) (ltype s)); tauto. }
      destruct DEC as [K|K].
      + assert (E := sorted_unique _ _ _ Hso I D1 (same_trans _ _ _ K (same_sym _ _ D2))). injection E as -> ->.
        exists (merged c0 s). split; [rewrite D4; left; reflexivity|].
        apply (same_trans _ s); [apply merged_key, D2|apply same_sym, D2].
      + exists c. split; [rewrite D4; right; split; assumption|split; reflexivity]. }
  destruct NK as (cn & NK1 & NK2 & NK3).
  constructor; cbn [s_list s_index s_alloc s_multi s_next].
  - exact S'.
  - intros i c I. destruct D as [(D1 & D2 & D3 & D4)|(c0 & D1 & D2 & D3 & D4)]; apply D4 in I.
    + destruct I as [E|I]; [injection E as -> ->; lia|]. specialize (Hfr _ _ I). lia.
    + destruct I as [E|[I _]]; [injection E as -> ->; specialize (Hfr _ _ D1); lia|]. specialize (Hfr _ _ I). lia.
  - intros i c c' I J. destruct D as [(D1 & D2 & D3 & D4)|(c0 & D1 & D2 & D3 & D4)]; apply D4 in I; apply D4 in J.
    + destruct I as [E|I], J as [E'|J].
      * congruence.
      * injection E as -> ->. specialize (Hfr _ _ J). lia.
      * injection E' as -> ->. specialize (Hfr _ _ I). lia.
      * apply (Hid i); assumption.
    + destruct I as [E|[I N]], J as [E'|[J N']].
      * congruence.
      * injection E as -> ->. exfalso. apply N'. cbn [snd]. rewrite (Hid _ _ _ J D1). exact D2.
      * injection E' as -> ->. exfalso. apply N. cbn [snd]. rewrite (Hid _ _ _ I D1). exact D2.
      * apply (Hid i); assumption.
  - intros x I. apply in_app_iff in I. destruct I as [I|[<-|[]]].
    + destruct (Hke x I) as (i & c & Ic & K). destruct (OLD i c Ic) as (c' & Ic' & K'). exists i, c'. split; [exact Ic'|].
      apply (same_trans _ _ _ K' K).
    + exists id, cn. split; assumption.
  - intros i c I. apply in_app_iff. destruct D as [(D1 & D2 & D3 & D4)|(c0 & D1 & D2 & D3 & D4)]; apply D4 in I.
    + destruct I as [E|I]; [injection E as -> ->; right; left; reflexivity|left; apply (Hsr _ _ I)].
    + destruct I as [E|[I _]]; [|left; apply (Hsr _ _ I)]. injection E as -> ->.
      destruct (merged_src c0 s D2) as [->| ->]; [left; apply (Hsr _ _ D1)|right; left; reflexivity].
  - intros i c I U x Ix K.
    assert (DEC : same_symbol c s \/ ~ same_symbol c s).
    { unfold same_symbol. destruct (list_eq_dec Z.eq_dec (lname c) (lname s)); [|tauto]. destruct (Z.eq_dec (ltype c) (ltype s)); tauto. }
    destruct DEC as [Ks|Ks].
    + assert (E := sorted_unique _ _ _ S' I NK1 (same_trans _ _ _ Ks (same_sym _ _ NK2))). injection E as -> ->.
      destruct (NK3 U) as [N1 N2]. apply in_app_iff in Ix. destruct Ix as [Ix|[<-|[]]]; [|exact N1].
      apply N2; [exact Ix|]. apply (same_trans _ _ _ K Ks).
    + assert (Io : In (i, c) (s_list st)).
      { destruct D as [(D1 & D2 & D3 & D4)|(c0 & D1 & D2 & D3 & D4)]; apply D4 in I.
        - destruct I as [E|I]; [|exact I]. injection E as -> ->. exfalso. apply Ks. split; reflexivity.
        - destruct I as [E|[I _]]; [|exact I]. injection E as -> ->. exfalso. apply Ks. apply merged_key, D2. }
      apply in_app_iff in Ix. destruct Ix as [Ix|[<-|[]]]; [apply (Hde _ _ Io U x Ix K)|].
      exfalso. apply Ks. apply same_sym, K.
  - rewrite !app_length. cbn [length]. lia.
  - intros i x N. destruct (Nat.lt_ge_cases i (length L)) as [Lt|Ge].
    + rewrite nth_error_app1 in N by exact Lt. destruct (Hat i x N) as (k & c & A & B & C).
      destruct (OLD k c B) as (c' & B' & C'). exists k, c'. split; [|split; [exact B'|apply (same_trans _ _ _ C' C)]].
      rewrite nth_error_app1 by lia. exact A.
    + rewrite nth_error_app2 in N by exact Ge. destruct (i - length L)%nat as [|j] eqn:Ei; [|destruct j; discriminate N].
      injection N as <-. exists id, cn. split; [|split; assumption].
      rewrite nth_error_app2 by lia. replace (i - length (s_index st))%nat with 0%nat by lia. reflexivity.
  - intros _. rewrite app_length. cbn [length]. lia.
  - rewrite twice_snoc, <- Hm2.
    assert (M : m = true <-> defined s /\ exists d, In d L /\ same_symbol d s /\ defined d).
    { destruct D as [(D1 & D2 & D3 & D4)|(c & D1 & D2 & D3 & D4)].
      - rewrite D3. split; [discriminate|]. intros (_ & d & Id & K & _). exfalso.
        destruct (Hke d Id) as (i & c & I & K'). apply (D1 _ I). apply (same_trans _ _ _ K' K).
      - rewrite D3, andb_true_iff, !negb_true_iff, !undef_spec_b. split.
        + intros [A B]. split; [exact B|]. exists c. split; [apply (Hsr _ _ D1)|]. split; assumption.
        + intros (A & d & Id & K & B). split; [|exact A].
          destruct (is_undefined c) eqn:Uc; [|apply undef_spec_b, Uc]. exfalso.
          pose proof (Hde _ _ D1 Uc d Id (same_trans _ _ _ K (same_sym _ _ D2))) as X. apply undef_iff in X. contradiction. }
    rewrite <- M. destruct m; lia.
Qed.

(** All symbols of all modules, moved, in the order of reading *)
Definition moved_symbols (pcoff : Z) (syms : list lsym) : list lsym := map (fun s => offset_symbol s pcoff) syms.

Lemma merge_inv pcoff symoff syms : forall L st i r,
  inv L st -> i + symoff = Z.of_nat (length L) ->
  merge_symbols st syms i pcoff symoff = LOk r ->
  inv (L ++ moved_symbols pcoff syms) (fst r) /\ snd r = Z.of_nat (length L) + Z.of_nat (length syms).
Proof.
  induction syms as [|s syms IH]; intros L st i r I E H; cbn [merge_symbols] in H.
  - injection H as <-. cbn. rewrite app_nil_r. split; [exact I|lia].
  - destruct (insert_symbol (s_next st) (offset_symbol s pcoff) (s_list st)) as [[l id] m] eqn:EI.
    unfold lbind in H. rewrite E in H.
    match type of H with context[add_to_list ?x ?y ?z] => destruct (add_to_list x y z) as [| |st''] eqn:EA; try discriminate H end.
    assert (I' := insert_inv _ _ _ _ _ _ _ I EI EA).
    destruct (IH _ _ (i + 1) r I') as (R1 & R2); [rewrite app_length; cbn [length]; lia|exact H|].
    cbn [moved_symbols map]. rewrite <- app_assoc in R1. cbn [app] in R1. split; [exact R1|].
    rewrite R2, app_length. cbn [length]. lia.
Qed.

(** Merging never fails: the list grows fast enough. *)
Lemma merge_total pcoff symoff syms : forall L st i,
  inv L st -> i + symoff = Z.of_nat (length L) -> exists r, merge_symbols st syms i pcoff symoff = LOk r.
Proof.
  induction syms as [|s syms IH]; intros L st i I E; cbn [merge_symbols]; [eexists; reflexivity|].
  destruct (insert_symbol (s_next st) (offset_symbol s pcoff) (s_list st)) as [[l id] m] eqn:EI.
  assert (A : exists st'', add_to_list (mkSst l (s_index st) (s_alloc st) (s_multi st + (if m then 1 else 0)) (S (s_next st))) id (i + symoff) = LOk st'').
  { unfold add_to_list. cbn [s_index s_alloc s_list s_multi s_next]. rewrite E, (i_len _ _ I), Z.eqb_refl.
    destruct (length L =? 0)%nat eqn:Z0.
    - replace (Z.of_nat (length L)) with 0 by lia. cbn. eexists. reflexivity.
    - assert (NE : L <> []) by (intros ->; discriminate Z0). pose proof (i_alloc _ _ I NE).
      destruct (s_alloc st <? Z.of_nat (length L) + 1) eqn:X.
      + replace (s_alloc st + 256 <? Z.of_nat (length L) + 1) with false by lia. eexists. reflexivity.
      + rewrite X. eexists. reflexivity. }
  destruct A as (st'' & A). rewrite A. cbn [lbind].
  rewrite E in A. assert (I' := insert_inv _ _ _ _ _ _ _ I EI A).
  apply (IH _ _ (i + 1) I'). rewrite app_length. cbn [length]. lia.
Qed.

(** ** Verification *)

Lemma verify_spec L st : inv L st -> (verify_symbols st = true <-> linkable L).
Proof.
  intros I. unfold verify_symbols. rewrite andb_true_iff, negb_true_iff.
  destruct (i_multi _ _ I) as [M1 M2].
  assert (M : (s_multi st =? 0) = true <-> ~ twice L) by (rewrite <- M2; lia). rewrite M.
  unfold linkable. split.
  - intros [U T]. split.
    + intros s Is. destruct (i_key _ _ I s Is) as (id & c & Ic & K). exists c. split; [apply (i_src _ _ I _ _ Ic)|].
      split; [exact K|]. apply undef_spec_b. destruct (is_undefined c) eqn:Uc; [|reflexivity].
      assert (X : existsb (fun c => is_undefined (snd c)) (s_list st) = true) by (apply existsb_exists; exists (id, c); split; assumption).
      congruence.
    + intros a s b t c E K D1 D2. apply T. exists a, s, b, t, c. repeat split; try assumption; apply K.
  - intros [A B]. split.
    + destruct (existsb _ _) eqn:X; [|reflexivity]. exfalso. apply existsb_exists in X. destruct X as ([id c] & Ic & U). cbn [snd] in U.
      destruct (A c (i_src _ _ I _ _ Ic)) as (d & Id & K & D).
      pose proof (i_def _ _ I _ _ Ic U d Id K) as V. apply undef_iff in V. contradiction.
    + intros (a & s & b & t & c & E & K & D1 & D2). apply (B a s b t c E K D1 D2).
Qed.

Lemma container_in l id c : (forall i c c', In (i, c) l -> In (i, c') l -> c = c') -> In (id, c) l -> container_at l id = Some c.
Proof.
  induction l as [|[k x] l IH]; intros U I; [destruct I|]. cbn [container_at]. destruct (k =? id)%nat eqn:E.
  - apply Nat.eqb_eq in E. subst k. f_equal. apply (U id); [left; reflexivity|exact I].
  - destruct I as [H|I]; [injection H as -> ->; rewrite Nat.eqb_refl in E; discriminate E|].
    apply IH; [|exact I]. intros i a b A B. apply (U i); right; assumption.
Qed.

(** Each symbol index leads to the definition of its symbol. *)
Lemma get_symbol_spec L st i s : inv L st -> linkable L -> nth_error L i = Some s ->
  exists d, get_symbol st (Z.of_nat i) = LOk d /\ In d L /\ same_symbol d s /\ defined d.
Proof.
  intros I Lk N. destruct (i_at _ _ I i s N) as (id & c & A & B & K).
  assert (Lt : (i < length L)%nat) by (apply nth_error_Some; congruence).
  assert (NE : L <> []) by (intros ->; cbn in Lt; lia). pose proof (i_alloc _ _ I NE).
  exists c. unfold get_symbol. replace (s_alloc st <=? Z.of_nat i) with false by lia. rewrite Nat2Z.id, A.
  rewrite (container_in _ _ _ (i_ids _ _ I) B). split; [reflexivity|]. split; [apply (i_src _ _ I _ _ B)|]. split; [exact K|].
  apply undef_spec_b. destruct (is_undefined c) eqn:U; [|reflexivity]. exfalso.
  destruct Lk as [L1 _]. destruct (L1 c (i_src _ _ I _ _ B)) as (d & Id & Kd & D).
  pose proof (i_def _ _ I _ _ B U d Id Kd) as V. apply undef_iff in V. contradiction.
Qed.

(** The definition is unique. *)
Lemma definition_unique L d d' : linkable L -> In d L -> In d' L -> same_symbol d d' -> defined d -> defined d' -> d = d'.
Proof.
  intros [_ U] I J K D D'. apply in_split in I. destruct I as (a & b & ->). apply in_app_iff in J.
  destruct J as [J|[J|J]]; [|exact J|]; exfalso; apply in_split in J; destruct J as (x & y & ->).
  - apply (U x d' y d b); try assumption; [rewrite <- app_assoc; reflexivity|apply same_sym, K].
  - apply (U a d x d' y); try assumption. reflexivity.
Qed.

(** ** Order independence *)

Lemma twice_in L : (forall a s b t c, L = a ++ s :: b ++ t :: c -> same_symbol s t -> defined s -> ~ defined t) <-> ~ twice L.
Proof.
  split.
  - intros H (a & s & b & t & c & E & K & D1 & D2). apply (H a s b t c E K D1 D2).
  - intros H a s b t c E K D1 D2. apply H. exists a, s, b, t, c. repeat split; try assumption; apply K.
Qed.

Lemma twice_cons x L : twice (x :: L) <-> twice L \/ (defined x /\ exists d, In d L /\ same_symbol x d /\ defined d).
Proof.
  split.
  - intros (a & s & b & t & c & E & K & D1 & D2). destruct a as [|y a]; cbn [app] in E.
    + injection E as -> ->. right. split; [exact D1|]. exists t. split; [apply in_elt|]. split; assumption.
    + injection E as <- ->. left. exists a, s, b, t, c. repeat split; try assumption; apply K.
  - intros [(a & s & b & t & c & -> & K & D1 & D2)|(D1 & d & I & K & D2)].
    + exists (x :: a), s, b, t, c. repeat split; try assumption; apply K.
    + apply in_split in I. destruct I as (b & c & ->). exists [], x, b, d, c. repeat split; try assumption; apply K.
Qed.

Lemma twice_perm L L' : Permutation L L' -> twice L -> twice L'.
Proof.
  intros P. induction P as [|x L L' P IH|x y L|L1 L2 L3 P1 IH1 P2 IH2].
  - tauto.
  - rewrite !twice_cons. intros [T|(D & d & I & R)]; [left; apply IH, T|right]. split; [exact D|]. exists d.
    split; [apply (Permutation_in _ P I)|exact R].
  - rewrite !twice_cons. intros [[T|(D & d & I & R)]|(D & d & [<-|I] & K & D')].
    + left. left. exact T.
    + right. split; [exact D|]. exists d. split; [right; exact I|exact R].
    + right. split; [exact D'|]. exists y. split; [left; reflexivity|]. split; [apply same_sym, K|exact D].
    + left. right. split; [exact D|]. exists d. split; [exact I|]. split; assumption.
  - auto.
Qed.

Lemma linkable_perm L L' : Permutation L L' -> linkable L -> linkable L'.
Proof.
  intros P [A B]. rewrite twice_in in B. split.
  - intros s I. destruct (A s (Permutation_in _ (Permutation_sym P) I)) as (d & Id & R). exists d. split; [apply (Permutation_in _ P Id)|exact R].
  - rewrite twice_in. intros T. apply B. apply (twice_perm _ _ (Permutation_sym P) T).
Qed.

(** The final symbol table lists the definitions in order. *)
Lemma table_spec L st d : inv L st -> linkable L ->
  (In d (map snd (s_list st)) <-> In d L /\ defined d).
Proof.
  intros I Lk. rewrite in_map_iff. split.
  - intros ([id c] & <- & Ic). cbn [snd]. split; [apply (i_src _ _ I _ _ Ic)|].
    apply undef_spec_b. destruct (is_undefined c) eqn:U; [|reflexivity]. exfalso.
    destruct Lk as [L1 _]. destruct (L1 c (i_src _ _ I _ _ Ic)) as (e & Ie & Ke & De).
    pose proof (i_def _ _ I _ _ Ic U e Ie Ke) as V. apply undef_iff in V. contradiction.
  - intros [Id Dd]. destruct (i_key _ _ I d Id) as (id & c & Ic & K). exists (id, c). split; [|exact Ic]. cbn [snd].
    apply (definition_unique L); try assumption; [apply (i_src _ _ I _ _ Ic)|].
    apply undef_spec_b. destruct (is_undefined c) eqn:U; [|reflexivity]. exfalso.
    pose proof (i_def _ _ I _ _ Ic U d Id (same_sym _ _ K)) as V. apply undef_iff in V. contradiction.
Qed.

Lemma sorted_same l l' : sorted l -> sorted l' -> (forall d, In d (map snd l) <-> In d (map snd l')) -> map snd l = map snd l'.
Proof.
  revert l'. induction l as [|x l IH]; intros [|y l'] S S' H.
  - reflexivity.
  - exfalso. destruct (H (snd y)) as [_ X]. apply X. left. reflexivity.
  - exfalso. destruct (H (snd x)) as [X _]. apply X. left. reflexivity.
  - apply StronglySorted_inv in S, S'. destruct S as [S F], S' as [S' F']. rewrite Forall_forall in F, F'.
    assert (E : snd x = snd y).
    { destruct (H (snd x)) as [X _]. destruct (X (or_introl eq_refl)) as [E|I]; [congruence|].
      destruct (H (snd y)) as [_ Y]. destruct (Y (or_introl eq_refl)) as [E|J]; [exact E|]. exfalso.
      cbn [map] in I, J. apply in_map_iff in I, J. destruct I as (u & Eu & Iu), J as (v & Ev & Jv).
      pose proof (F' u Iu) as A. pose proof (F v Jv) as B.
      assert (A' : klt y x) by (apply (klt_key y y u x); [split; reflexivity|rewrite Eu; split; reflexivity|exact A]).
      assert (B' : klt x y) by (apply (klt_key x x v y); [split; reflexivity|rewrite Ev; split; reflexivity|exact B]).
      apply (klt_irrefl _ _ (klt_trans _ _ _ A' B')). split; reflexivity. }
    cbn [map]. rewrite E. f_equal. apply IH; [exact S|exact S'|]. intros d. specialize (H d). cbn [map In] in H.
    split; intros I.
    + destruct (proj1 H (or_intror I)) as [<-|J]; [|exact J]. exfalso. apply in_map_iff in I. destruct I as (u & Eu & Iu).
      apply (klt_irrefl _ _ (F u Iu)). rewrite Eu, E. split; reflexivity.
    + destruct (proj2 H (or_intror I)) as [<-|J]; [|exact J]. exfalso. apply in_map_iff in I. destruct I as (u & Eu & Iu).
      apply (klt_irrefl _ _ (F' u Iu)). rewrite Eu, E. split; reflexivity.
Qed.

