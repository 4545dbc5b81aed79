(** Writing and reading an object file. *)

From Coq Require Import ZArith Bool List Lia ZifyBool.
From Verif Require Import Words PoffModel PoffSpec PoffLine PoffSwap.
Import ListNotations.
Open Scope Z_scope.

(** ** Slices *)

Lemma slice_mid pre b post o n : o = Z.of_nat (length pre) -> n = Z.of_nat (length b) -> slice (pre ++ b ++ post) o n = Some b.
Proof.
  intros -> ->. unfold slice. replace (_ <=? _) with true by (rewrite !app_length; lia). rewrite !Nat2Z.id.
  rewrite skipn_app, skipn_all, Nat.sub_diag. cbn [app skipn]. rewrite firstn_app, firstn_all, Nat.sub_diag. cbn [firstn]. rewrite app_nil_r. reflexivity.
Qed.

Lemma skipn_app_len {A} n m (a b : list A) : length a = n -> skipn (n + m) (a ++ b) = skipn m b.
Proof. intros <-. rewrite skipn_app, skipn_all2 by lia. cbn [app]. f_equal. lia. Qed.

(** ** Headers *)

Section Headers.
Variables (sw : bool) (p : poff).
Hypothesis Attr : forall k, s_flags (p_sect p k) = sh_flags0 k /\ s_entsize (p_sect p k) = sh_entsize0 k /\ s_addr (p_sect p k) = 0.

Lemma flags_u8 k : u8 (sh_flags0 k) = sh_flags0 k.
Proof. destruct k; reflexivity. Qed.

Lemma kind_of_type k : kind_of (sh_type k) (sh_flags0 k) = Some k.
Proof. destruct k; reflexivity. Qed.

Lemma header_length k s name o n : length (section_header sw k s name o n) = 20%nat.
Proof. unfold section_header. rewrite !app_length, !put_length. reflexivity. Qed.

Definition hdr (k : kind) (o n : Z) : rhdr := mkRhdr (sh_flags0 k) (sh_entsize0 k) 0 o n.
Definition set_hdr (k : kind) (h : rhdr) (hs : kind -> rhdr) (k' : kind) : rhdr := if kind_eqb k' k then h else hs k'.

Lemma read_one k name o n pre post m hs : 0 <= o < 2 ^ 32 -> 0 <= n < 2 ^ 32 ->
  read_headers sw (pre ++ section_header sw k (p_sect p k) name o n ++ post) (S m) (Z.of_nat (length pre)) 20 hs =
  read_headers sw (pre ++ section_header sw k (p_sect p k) name o n ++ post) m (Z.of_nat (length (pre ++ section_header sw k (p_sect p k) name o n))) 20
    (set_hdr k (hdr k o n) hs).
Proof.
  intros Ho Hn. cbn [read_headers]. rewrite slice_mid by (rewrite ?header_length; reflexivity).
  rewrite app_length, header_length, Nat2Z.inj_add. change (Z.of_nat 20) with 20.
  remember (pre ++ section_header sw k (p_sect p k) name o n ++ post) as file eqn:Ef. clear Ef.
  destruct (Attr k) as (Af & Ae & Aa). unfold section_header. rewrite Af, Ae, Aa, flags_u8. cbn [app nth]. rewrite kind_of_type.
  assert (W2 : plain_width 2) by (left; reflexivity). assert (W4 : plain_width 4) by (right; reflexivity).
  change (skipn 2 (?a :: ?b :: ?l)) with l.
  set (l := put sw 2 _ ++ _).
  change (skipn 8 (sh_type k :: sh_flags0 k :: l)) with (skipn (2 + (4 + 0)) l).
  change (skipn 12 (sh_type k :: sh_flags0 k :: l)) with (skipn (2 + (4 + (4 + 0))) l).
  change (skipn 16 (sh_type k :: sh_flags0 k :: l)) with (skipn (2 + (4 + (4 + (4 + 0)))) l).
  unfold l. rewrite !skipn_app_len by apply put_length. cbn [skipn].
  rewrite !get_put by (auto; destruct k; cbn; lia || (cbn; lia)).
  replace (get sw 4 (put sw 4 n)) with n.
  2:{ rewrite <- (app_nil_r (put sw 4 n)). rewrite get_put; [reflexivity|exact W4|exact Hn]. }
  reflexivity.
Qed.

Fixpoint sum (ks : list kind) : Z :=
  match ks with [] => 0 | k :: rest => Z.of_nat (length (data p k)) + sum rest end.

Fixpoint upd (ks : list kind) (o : Z) (hs : kind -> rhdr) : kind -> rhdr :=
  match ks with
  | [] => hs
  | k :: rest =>
    let n := Z.of_nat (length (data p k)) in
    upd rest (o + n) (if have p k then set_hdr k (hdr k o n) hs else hs)
  end.

Lemma sum_nonneg ks : 0 <= sum ks.
Proof.
  clear Attr. induction ks as [|k ks IH]; cbn [sum]; lia. Qed.

Lemma have_false k : have p k = false -> data p k = [].
Proof. unfold have. destruct (data p k); [reflexivity|discriminate]. Qed.

Lemma have_true k : have p k = true -> (0 < length (data p k))%nat.
Proof. unfold have. destruct (data p k); [discriminate|cbn; lia]. Qed.

Lemma sect_name_text k : text (sect_name k).
Proof. destruct k; repeat constructor; discriminate. Qed.

Lemma add_name tab ss k : table_ok tab ss ->
  exists tab' i more, add_string tab (Some (sect_name k)) = Some (tab', i) /\ table_ok tab' (ss ++ more) /\
    (exists suffix, tab' = tab ++ suffix) /\ (length tab' <= length tab + 10)%nat /\ tab' <> [] /\ 0 <= i < Z.of_nat (length tab').
Proof.
  clear Attr.
  intros T. destruct (add_index tab (Some (sect_name k)) ss T (sect_name_text k)) as (tab' & i & more & A & TI & Ix & Suf).
  exists tab', i, more. split; [exact A|]. split; [right; exact TI|]. split; [exact Suf|].
  assert (NE : tab' <> []) by (destruct TI as [_ ->]; rewrite pack_cons; discriminate). split.
  - revert A. unfold add_string. set (tab1 := match tab with [] => [0] | _ => tab end).
    assert (L1 : (length tab1 <= length tab + 1)%nat) by (unfold tab1; destruct tab; cbn; lia).
    assert (Ln : (length (sect_name k) <= 8)%nat) by (destruct k; cbn; lia).
    destruct (find_string _ _ _ _) as [[j|]|]; [| |discriminate].
    + intros X. injection X as <- _. lia.
    + destruct (length (sect_name k) =? 0)%nat; intros X; injection X as <- _; [lia|]. rewrite !app_length. cbn [length].
      destruct tab; [|]; cbn [length tab1] in *; [|unfold tab1; cbn [length]; lia]. cbn. lia.
  - split; [exact NE|]. destruct Ix as (a & b & E & _ & ->). destruct TI as [_ ->]. rewrite E, pack_app, app_length, pack_cons, app_length.
    cbn [length]. lia.
Qed.

Lemma headers_ok ks : forall tab ss o, table_ok tab ss -> 0 <= o -> o + sum ks < 2 ^ 32 ->
  exists h tab' more, write_headers sw p ks tab o = Some (h, tab', o + sum ks) /\ table_ok tab' (ss ++ more) /\
    (exists suffix, tab' = tab ++ suffix) /\ (length tab' <= length tab + 10 * length ks)%nat /\
    length h = (20 * length (filter (have p) ks))%nat /\
    forall pre post n hs,
      read_headers sw (pre ++ h ++ post) (length (filter (have p) ks) + n) (Z.of_nat (length pre)) 20 hs =
      read_headers sw (pre ++ h ++ post) n (Z.of_nat (length (pre ++ h))) 20 (upd ks o hs).
Proof.
  induction ks as [|k ks IH]; intros tab ss o T Ho Hs; cbn [write_headers sum filter upd] in *.
  - exists [], tab, []. split; [do 2 f_equal; lia|]. rewrite app_nil_r. split; [exact T|]. split; [exists []; rewrite app_nil_r; reflexivity|].
    split; [cbn; lia|]. split; [reflexivity|]. intros pre post n hs. cbn [length Nat.add]. rewrite app_nil_r. reflexivity.
  - pose proof (sum_nonneg ks). destruct (have p k) eqn:Hk.
    + destruct (add_name tab ss k T) as (tab1 & i & more & -> & T1 & (suf & Es) & L1 & NE1 & Hi). cbn [obind].
      destruct (IH tab1 (ss ++ more) (o + Z.of_nat (length (data p k))) T1 ltac:(lia) ltac:(lia))
        as (h & tab2 & more2 & -> & T2 & (suf2 & Es2) & L2 & Lh & R). cbn [obind].
      exists (section_header sw k (p_sect p k) i o (Z.of_nat (length (data p k))) ++ h), tab2, (more ++ more2).
      split; [do 2 f_equal; lia|]. rewrite app_assoc. split; [exact T2|]. split; [exists (suf ++ suf2); rewrite Es2, Es, app_assoc; reflexivity|].
      split; [cbn [length]; lia|]. split; [rewrite app_length, header_length, Lh; cbn [length]; lia|].
      intros pre post n hs. cbn [length Nat.add]. rewrite <- app_assoc. rewrite read_one by lia.
      set (b := section_header _ _ _ _ _ _) in *. rewrite (app_assoc pre b (h ++ post)). rewrite R. rewrite (app_assoc pre b h). reflexivity.
    + destruct (IH tab ss o T ltac:(lia) ltac:(lia)) as (h & tab2 & more2 & E & T2 & Suf & L2 & Lh & R).
      exists h, tab2, more2. rewrite (have_false k Hk). cbn [length]. change (Z.of_nat 0) with 0. rewrite Z.add_0_r.
      split; [rewrite E; do 2 f_equal; lia|]. split; [exact T2|]. split; [exact Suf|]. split; [lia|]. split; [exact Lh|exact R].
Qed.

Fixpoint place (ks : list kind) (o : Z) (k : kind) : Z :=
  match ks with
  | [] => 0
  | k' :: rest => if kind_eqb k k' then o else place rest (o + Z.of_nat (length (data p k'))) k
  end.

Lemma kind_eqb_spec a b : kind_eqb a b = true <-> a = b.
Proof. destruct a, b; cbn; split; intros H; try reflexivity; discriminate H. Qed.

Lemma upd_out ks : forall o hs k, ~ In k ks -> upd ks o hs k = hs k.
Proof.
  induction ks as [|k' ks IH]; intros o hs k N; cbn [upd]; [reflexivity|]. rewrite IH by (intros X; apply N; right; exact X).
  destruct (have p k'); [|reflexivity]. unfold set_hdr. destruct (kind_eqb k k') eqn:E; [|reflexivity].
  apply kind_eqb_spec in E. exfalso. apply N. left. symmetry. exact E.
Qed.

Lemma upd_in ks : forall o hs k, NoDup ks -> In k ks -> have p k = true -> upd ks o hs k = hdr k (place ks o k) (Z.of_nat (length (data p k))).
Proof.
  induction ks as [|k' ks IH]; intros o hs k ND I Hk; [destruct I|]. cbn [upd place]. apply NoDup_cons_iff in ND. destruct ND as [N ND].
  destruct (kind_eqb k k') eqn:E.
  - apply kind_eqb_spec in E. subst k'. rewrite upd_out by exact N. rewrite Hk. unfold set_hdr.
    replace (kind_eqb k k) with true by (symmetry; apply kind_eqb_spec; reflexivity). reflexivity.
  - destruct I as [I|I]; [subst k'; exfalso; destruct k; discriminate E|]. apply IH; assumption.
Qed.

Lemma upd_absent ks : forall o hs k, have p k = false -> upd ks o hs k = hs k.
Proof.
  induction ks as [|k' ks IH]; intros o hs k Hk; cbn [upd]; [reflexivity|]. rewrite IH by exact Hk.
  destruct (have p k') eqn:H'; [|reflexivity]. unfold set_hdr. destruct (kind_eqb k k') eqn:E; [|reflexivity].
  apply kind_eqb_spec in E. congruence.
Qed.

(** ** Data *)

Variable raw : kind -> list Z.
Hypothesis Raw : forall k, In k order -> have p k = true ->
  swap_data sw (Z.of_nat (length (data p KRel))) k (p_sect p k) = Some (raw k) /\ length (raw k) = length (data p k) /\
  forall R, swap_data sw R k (mkSect (sh_flags0 k) (sh_entsize0 k) 0 (raw k) (Z.of_nat (length (raw k)))) = Some (data p k).

Definition part (k : kind) : list Z := if have p k then raw k else [].

Lemma part_length k : In k order -> length (part k) = length (data p k).
Proof.
  intros I. unfold part. destruct (have p k) eqn:H; [apply Raw; assumption|]. rewrite (have_false k H). reflexivity.
Qed.

Lemma data_ok ks : (forall k, In k ks -> In k order) -> write_data sw p ks = Some (concat (map part ks)).
Proof.
  induction ks as [|k ks IH]; intros I; cbn [write_data map concat]; [reflexivity|]. specialize (IH (fun k' H => I k' (or_intror H))).
  unfold part at 1. destruct (have p k) eqn:H; [|exact IH]. destruct (Raw k (I k (or_introl eq_refl)) H) as (-> & _). cbn [obind]. rewrite IH. reflexivity.
Qed.

Lemma data_at ks : forall k pre post o, (forall k, In k ks -> In k order) -> In k ks -> o = Z.of_nat (length pre) ->
  slice (pre ++ concat (map part ks) ++ post) (place ks o k) (Z.of_nat (length (data p k))) = Some (part k).
Proof.
  clear Attr.
  induction ks as [|k' ks IH]; intros k pre post o Or I Ho; [destruct I|]. cbn [map concat place]. destruct (kind_eqb k k') eqn:E.
  - apply kind_eqb_spec in E. subst k'. rewrite <- app_assoc. apply slice_mid; [exact Ho|].
    rewrite part_length by (apply Or; left; reflexivity). reflexivity.
  - destruct I as [I|I]; [subst k'; exfalso; destruct k; discriminate E|]. rewrite <- app_assoc, app_assoc.
    apply IH; [intros k'' H; apply Or; right; exact H|exact I|]. rewrite app_length, part_length by (apply Or; left; reflexivity). lia.
Qed.

Lemma read_data_ok file hs (dat : kind -> list Z) : forall ks ss, NoDup ks ->
  (forall k, In k ks -> exists o, hs k = hdr k o (Z.of_nat (length (dat k))) /\
     (dat k <> [] -> exists d, slice file o (Z.of_nat (length (dat k))) = Some d /\ length d = length (dat k) /\
        forall R, swap_data sw R k (mkSect (sh_flags0 k) (sh_entsize0 k) 0 d (Z.of_nat (length d))) = Some (dat k))) ->
  exists ss', read_data sw file hs ks ss = ROk ss' /\
    (forall k, In k ks -> s_data (ss' k) = dat k /\ s_flags (ss' k) = sh_flags0 k /\ s_entsize (ss' k) = sh_entsize0 k) /\
    (forall k, ~ In k ks -> ss' k = ss k).
Proof.
  clear Attr Raw raw p.
  induction ks as [|k ks IH]; intros ss ND H; cbn [read_data].
  - exists ss. split; [reflexivity|]. split; [intros k []|reflexivity].
  - apply NoDup_cons_iff in ND. destruct ND as [N ND]. destruct (H k (or_introl eq_refl)) as (o & Eh & D). rewrite Eh. unfold hdr. cbn [r_size r_offset r_flags r_entsize r_addr].
    assert (G : forall s, s_data s = dat k -> s_flags s = sh_flags0 k -> s_entsize s = sh_entsize0 k ->
      exists ss', read_data sw file hs ks (fun k' => if kind_eqb k' k then s else ss k') = ROk ss' /\
        (forall k0, In k0 (k :: ks) -> s_data (ss' k0) = dat k0 /\ s_flags (ss' k0) = sh_flags0 k0 /\ s_entsize (ss' k0) = sh_entsize0 k0) /\
        (forall k0, ~ In k0 (k :: ks) -> ss' k0 = ss k0)).
    { intros s S1 S2 S3. destruct (IH (fun k' => if kind_eqb k' k then s else ss k') ND (fun k' I => H k' (or_intror I))) as (ss' & E & A & B).
      exists ss'. split; [exact E|]. split.
      - intros k0 [<-|I]; [|apply A, I]. rewrite B by exact N. replace (kind_eqb k k) with true by (symmetry; apply kind_eqb_spec; reflexivity).
        split; [exact S1|split; [exact S2|exact S3]].
      - intros k0 N0. rewrite B by (intros X; apply N0; right; exact X). destruct (kind_eqb k0 k) eqn:Ek; [|reflexivity].
        apply kind_eqb_spec in Ek. exfalso. apply N0. left. symmetry. exact Ek. }
    destruct (Z.of_nat (length (dat k)) =? 0) eqn:Z0.
    + apply G; [|reflexivity|reflexivity]. cbn [s_data]. destruct (dat k); [reflexivity|cbn in Z0; lia].
    + destruct D as (d & -> & Ld & Sw); [intros X; rewrite X in Z0; discriminate Z0|]. rewrite <- Ld, Sw. apply G; reflexivity.
Qed.

End Headers.

