(** An object file read back, and its byte order. *)

From Coq Require Import ZArith Bool List Lia ZifyBool.
From Verif Require Import Words PoffModel PoffSpec PoffLine PoffSwap PoffRound.
Import ListNotations.
Open Scope Z_scope.

Lemma order_nodup : NoDup order.
Proof. repeat constructor; cbn; intuition discriminate. Qed.

Lemma read_order_nodup : NoDup read_order.
Proof. repeat constructor; cbn; intuition discriminate. Qed.

Lemma in_order k : k <> KStr -> In k order.
Proof. destruct k; intros N; cbn; tauto. Qed.

Lemma sum_fold p ks : fold_right (fun k n => Z.of_nat (length (data p k)) + n) 0 ks = sum p ks.
Proof. induction ks as [|k ks IH]; cbn [fold_right sum]; [reflexivity|]. rewrite IH. reflexivity. Qed.

Lemma fh_length sw p n : length (file_header sw p n) = 24%nat.
Proof. unfold file_header. rewrite !app_length, !put_length. reflexivity. Qed.

Lemma filter_le {A} (f : A -> bool) l : (length (filter f l) <= length l)%nat.
Proof. induction l as [|x l IH]; cbn [filter length]; [lia|]. destruct (f x); cbn [length]; lia. Qed.

Local Ltac fits := auto; unfold SH_SIZE, FH_SIZE in *; change (256 ^ Z.of_nat 2) with 65536; change (256 ^ Z.of_nat 4) with (2 ^ 32); cbn [sh_entsize0]; try lia.

Section Round.
Variables (sw : bool) (p : poff) (raw : kind -> list Z).
Hypothesis Ok : container_ok p.
Hypothesis Raw : forall k, In k order -> have p k = true ->
  swap_data sw (Z.of_nat (length (data p KRel))) k (p_sect p k) = Some (raw k) /\ length (raw k) = length (data p k) /\
  forall R, swap_data sw R k (mkSect (sh_flags0 k) (sh_entsize0 k) 0 (raw k) (Z.of_nat (length (raw k)))) = Some (data p k).

Lemma round_trip : exists file q, write_file sw p = Some file /\ read_file sw file = ROk q /\ same_object p q.
Proof.
  destruct Ok as (Ty & Ar & Nm & En & At & Sy & Re & Fi & Li & St & Sz).
  assert (Attr : forall k, s_flags (p_sect p k) = sh_flags0 k /\ s_entsize (p_sect p k) = sh_entsize0 k /\ s_addr (p_sect p k) = 0).
  { intros k. destruct (At k) as (A1 & A2 & A3 & _). repeat split; assumption. }
  cbn [fold_right] in Sz. change (fold_right _ 0 order) with (fold_right (fun k n => Z.of_nat (length (data p k)) + n) 0 order) in Sz.
  assert (Sz' : Z.of_nat (length (data p KStr)) + sum p order + 256 < 2 ^ 32) by (rewrite <- sum_fold; exact Sz). clear Sz.
  apply string_table_ok in St. destruct St as (ss & T).
  set (count := length (filter (have p) order)).
  assert (Lc : (count <= 7)%nat) by (exact (filter_le (have p) order)).
  pose proof (sum_nonneg p order) as S0.
  unfold write_file. fold count.
  destruct (headers_ok sw p Attr order (data p KStr) ss (FH_SIZE + (1 + Z.of_nat count) * SH_SIZE) T) as (h & tab & more & -> & T1 & (suf & Es) & L1 & Lh & RH).
  { unfold FH_SIZE, SH_SIZE. lia. } { unfold FH_SIZE, SH_SIZE. lia. }
  cbn [obind]. destruct (add_name tab (ss ++ more) KStr T1) as (tab' & name & more2 & -> & T2 & (suf2 & Es2) & L2 & NE & Hn). cbn [obind].
  rewrite (data_ok sw p raw Raw order (fun k H => H)). cbn [obind].
  set (o0 := FH_SIZE + (1 + Z.of_nat count) * SH_SIZE) in *.
  set (FH := file_header sw p (1 + Z.of_nat count)). set (SH := section_header sw KStr (p_sect p KStr) name (o0 + sum p order) (Z.of_nat (length tab'))).
  set (d := concat (map (part p raw) order)).
  assert (LFH : length FH = 24%nat) by apply fh_length.
  assert (LSH : length SH = 20%nat) by apply header_length.
  assert (Lo : length order = 7%nat) by reflexivity. fold count in Lh.
  assert (Lt : Z.of_nat (length tab') <= Z.of_nat (length (data p KStr)) + 80) by lia.
  set (file := FH ++ h ++ SH ++ d ++ tab').
  assert (W2 : plain_width 2) by (left; reflexivity). assert (W4 : plain_width 4) by (right; reflexivity).
  (* headers *)
  assert (E1 : read_headers sw file (S count) 24 20 rhdr0 =
               ROk (set_hdr KStr (hdr KStr (o0 + sum p order) (Z.of_nat (length tab'))) (upd p order o0 rhdr0))).
  { specialize (RH FH (SH ++ d ++ tab') 1%nat rhdr0). rewrite LFH in RH. change (Z.of_nat 24) with 24 in RH.
    fold count in RH. rewrite Nat.add_1_r in RH. unfold file. rewrite RH. rewrite (app_assoc FH h).
    unfold SH. rewrite (read_one sw p Attr KStr) by (unfold o0, FH_SIZE, SH_SIZE in *; lia). reflexivity. }
  (* data *)
  set (hs := set_hdr KStr (hdr KStr (o0 + sum p order) (Z.of_nat (length tab'))) (upd p order o0 rhdr0)) in *.
  assert (Ld : Z.of_nat (length d) = sum p order).
  { unfold d. assert (G : forall ks, (forall k, In k ks -> In k order) -> Z.of_nat (length (concat (map (part p raw) ks))) = sum p ks).
    { induction ks as [|k ks IH]; intros I; cbn [map concat sum]; [reflexivity|]. rewrite app_length, Nat2Z.inj_add, IH by (intros k' H; apply I; right; exact H).
      rewrite (part_length sw p raw Raw) by (apply I; left; reflexivity). reflexivity. }
    apply G. auto. }
  destruct (read_data_ok sw file hs (fun k => if kind_eqb k KStr then tab' else data p k) read_order sect0 read_order_nodup) as (ss' & E2 & A & B).
  { intros k _. destruct (kind_eqb k KStr) eqn:Ek.
    - apply kind_eqb_spec in Ek. subst k. exists (o0 + sum p order). split; [reflexivity|]. intros _. exists tab'.
      split; [|split; [reflexivity|intros R; unfold swap_data; destruct sw; reflexivity]].
      unfold file. rewrite !app_assoc. rewrite <- (app_nil_r tab') at 1. apply slice_mid; [|reflexivity].
      rewrite !app_length, Lh, LFH, LSH, !Nat2Z.inj_add, Ld. unfold o0, FH_SIZE, SH_SIZE. lia.
    - assert (NK : k <> KStr) by (intros ->; discriminate Ek). unfold hs, set_hdr. rewrite Ek.
      destruct (have p k) eqn:Hk.
      + rewrite (upd_in p order o0 rhdr0 k order_nodup (in_order k NK) Hk). exists (place p order o0 k). split; [reflexivity|]. intros _.
        exists (raw k). destruct (Raw k (in_order k NK) Hk) as (_ & Lr & Sw). split; [|split; [exact Lr|exact Sw]].
        replace file with ((FH ++ h ++ SH) ++ d ++ tab') by (unfold file; rewrite <- !app_assoc; reflexivity).
        unfold d. rewrite (data_at sw p raw Raw order k (FH ++ h ++ SH) tab' o0 (fun k H => H) (in_order k NK)).
        * unfold part. rewrite Hk. reflexivity.
        * rewrite !app_length, LFH, Lh, LSH. unfold o0, FH_SIZE, SH_SIZE. lia.
      + rewrite (upd_absent p order o0 rhdr0 k Hk). exists 0. apply have_false in Hk. rewrite Hk. split; [reflexivity|]. intros X. exfalso. apply X. reflexivity. }
  exists file, (mkPoff (p_type p) (p_arch p) (p_name p) (p_entry p) ss'). split; [reflexivity|].
  split.
  - unfold read_file.
    replace (slice file 0 FH_SIZE) with (Some FH) by (symmetry; unfold file; apply (slice_mid [] FH); [reflexivity|rewrite LFH; reflexivity]).
    remember file as f eqn:Ef. clear Ef.
    unfold FH, file_header. replace (u8 (p_type p)) with (p_type p) by (symmetry; unfold u8; apply Z.mod_small; lia).
    replace (u8 (p_arch p)) with (p_arch p) by (symmetry; unfold u8; apply Z.mod_small; lia).
    cbn [app firstn nth]. change (bytes_eqb [80; 79; 70; 70; 1] [80; 79; 70; 70; 1]) with true. cbv iota.
    set (l := put sw 2 SH_SIZE ++ _). set (H8 := 80 :: _).
    change (skipn 8 H8) with l. change (skipn 10 H8) with (skipn (2 + 0) l). change (skipn 12 H8) with (skipn (2 + (2 + 0)) l).
    change (skipn 16 H8) with (skipn (2 + (2 + (4 + 0))) l). change (skipn 20 H8) with (skipn (2 + (2 + (4 + (4 + 0)))) l).
    unfold l. rewrite !skipn_app_len by apply put_length. cbn [skipn].
    rewrite (get_put sw sw 2 SH_SIZE) by fits. rewrite (get_put sw sw 2 (1 + Z.of_nat count)) by fits.
    rewrite (get_put sw sw 4 (p_name p)) by fits. rewrite (get_put sw sw 4 (p_entry p)) by fits.
    replace (get sw 4 (put sw 4 FH_SIZE)) with 24.
    2:{ rewrite <- (app_nil_r (put sw 4 FH_SIZE)). rewrite get_put; [reflexivity|exact W4|fits]. }
    replace (Z.to_nat (1 + Z.of_nat count)) with (S count) by lia. change SH_SIZE with 20. rewrite E1. cbn [rbind]. rewrite E2. reflexivity.
  - unfold same_object. cbn [p_type p_arch p_name p_entry]. do 4 (split; [reflexivity|]).
    assert (IR : forall k, In k read_order) by (destruct k; cbn; tauto).
    split; [|split].
    + intros k NK. unfold data at 1. cbn [p_sect]. rewrite (proj1 (A k (IR k))). replace (kind_eqb k KStr) with false; [reflexivity|].
      destruct k; try reflexivity. contradiction.
    + exists (suf ++ suf2). unfold data at 1. cbn [p_sect]. rewrite (proj1 (A KStr (IR KStr))). cbn [kind_eqb]. rewrite Es2, Es, app_assoc. reflexivity.
    + intros k. cbn [p_sect]. destruct (A k (IR k)) as (_ & -> & ->). destruct (Attr k) as (-> & -> & _). split; reflexivity.
Qed.

End Round.

(** ** Data in the byte order of the host *)

Definition raw_of (sw : bool) (p : poff) (k : kind) : list Z :=
  match swap_data sw (Z.of_nat (length (data p KRel))) k (p_sect p k) with Some d => d | None => [] end.

Lemma raw_ok sw p : container_ok p -> (sw = true -> swappable p) -> forall k, In k order -> have p k = true ->
  swap_data sw (Z.of_nat (length (data p KRel))) k (p_sect p k) = Some (raw_of sw p k) /\ length (raw_of sw p k) = length (data p k) /\
  forall R, swap_data sw R k (mkSect (sh_flags0 k) (sh_entsize0 k) 0 (raw_of sw p k) (Z.of_nat (length (raw_of sw p k)))) = Some (data p k).
Proof.
  intros (_ & _ & _ & _ & At & Sy & Re & Fi & Li & _) SW k I Hk. unfold raw_of.
  destruct (At k) as (_ & Ee & _ & Bk & _).
  destruct sw.
  2:{ cbn [swap_data]. split; [reflexivity|]. split; [reflexivity|]. intros R. reflexivity. }
  destruct (SW eq_refl) as [F1 D0].
  set (R0 := Z.of_nat (length (data p KRel))).
  assert (Tab : is_table k -> (exists n, length (data p k) = (n * total (layout k))%nat) ->
    exists d', (forall R fl ad al, swap_data true R k (mkSect fl (sh_entsize0 k) ad (data p k) al) = Some d') /\
               length d' = length (data p k) /\ forall R fl ad al, swap_data true R k (mkSect fl (sh_entsize0 k) ad d' al) = Some (data p k)).
  { intros K (n & L). destruct (chunks (total (layout k)) n (data p k) L Bk) as (cs & E & F & _). rewrite E.
    exists (concat (map (revs (layout k)) cs)). split; [intros; apply swap_data_table; assumption|]. split.
    - rewrite !(concat_length (total (layout k))).
      + rewrite map_length. reflexivity.
      + eapply Forall_impl; [|exact F]. intros c [Lc _]. exact Lc.
      + eapply Forall_impl; [|exact (map_revs_ok k cs F)]. intros c [Lc _]. exact Lc.
    - intros. rewrite swap_data_table by (auto using map_revs_ok). f_equal. f_equal. rewrite map_map. rewrite <- (map_id cs) at 2.
      apply map_ext_in. intros c Ic. rewrite Forall_forall in F. apply revs_revs, F, Ic. }
  assert (G : (exists d', (forall R fl ad al, swap_data true R k (mkSect fl (sh_entsize0 k) ad (data p k) al) = Some d') /\
               length d' = length (data p k) /\ forall R fl ad al, swap_data true R k (mkSect fl (sh_entsize0 k) ad d' al) = Some (data p k)) ->
    swap_data true R0 k (p_sect p k) = Some match swap_data true R0 k (p_sect p k) with Some d => d | None => [] end /\
    length match swap_data true R0 k (p_sect p k) with Some d => d | None => [] end = length (data p k) /\
    (forall R, swap_data true R k (mkSect (sh_flags0 k) (sh_entsize0 k) 0 match swap_data true R0 k (p_sect p k) with Some d => d | None => [] end
       (Z.of_nat (length match swap_data true R0 k (p_sect p k) with Some d => d | None => [] end))) = Some (data p k))).
  { intros (d' & H1 & H2 & H3). unfold data in *. destruct (p_sect p k) as [fl en ad d al]. cbn [s_entsize s_data] in *. subst en.
    rewrite H1. split; [reflexivity|]. split; [exact H2|]. intros R. apply H3. }
  apply G. destruct k; cbn in I.
  - exists (data p KText). repeat split; reflexivity.
  - exists (data p KRo). repeat split; reflexivity.
  - apply Tab; [left; reflexivity|exact Sy].
  - decompose [or] I; try discriminate. contradiction.
  - apply Tab; [right; left; reflexivity|exact Re].
  - exists (rev (data p KFiles)). split; [intros; apply swap_one_file; assumption|]. split; [apply rev_length|].
    intros. rewrite swap_one_file; [rewrite rev_involutive; reflexivity|rewrite rev_length; assumption|rewrite rev_length; assumption|apply bytes_rev, Bk].
  - apply Tab; [right; right; reflexivity|exact Li].
  - unfold have in Hk. rewrite D0 in Hk. discriminate Hk.
Qed.

Lemma container_round_trip sw p : container_ok p -> (sw = true -> swappable p) ->
  exists file q, write_file sw p = Some file /\ read_file sw file = ROk q /\ same_object p q.
Proof. intros Ok Sw. exact (round_trip sw p (raw_of sw p) Ok (raw_ok sw p Ok Sw)). Qed.

(** ** Hosts of different byte order *)

Lemma write_headers_host p q ks : forall tab ss o, table_ok tab ss -> 0 <= o -> o + sum p ks < 2 ^ 32 ->
  Z.of_nat (length tab) + 10 * Z.of_nat (length ks) < 2 ^ 32 ->
  (forall k, s_flags (p_sect p k) = sh_flags0 k /\ s_entsize (p_sect p k) = sh_entsize0 k /\ s_addr (p_sect p k) = 0) ->
  (forall k, s_flags (p_sect q k) = sh_flags0 k /\ s_entsize (p_sect q k) = sh_entsize0 k /\ s_addr (p_sect q k) = 0) ->
  (forall k, length (data p k) = length (data q k)) ->
  write_headers true p ks tab o = write_headers false q ks tab o.
Proof.
  assert (W2 : plain_width 2) by (left; reflexivity). assert (W4 : plain_width 4) by (right; reflexivity).
  induction ks as [|k ks IH]; intros tab ss o T Ho Hs Ht Ap Aq L; cbn [write_headers sum] in *; [reflexivity|].
  pose proof (sum_nonneg p ks). assert (Hh : have p k = have q k).
  { unfold have. specialize (L k). destruct (data p k), (data q k); reflexivity || discriminate L. }
  rewrite <- Hh. destruct (have p k) eqn:E.
  - destruct (add_name tab ss k T) as (tab1 & i & more & -> & T1 & _ & L1 & _ & Hi). cbn [obind length] in *. rewrite <- L.
    rewrite (IH tab1 (ss ++ more)) by (auto; lia). destruct (write_headers false q ks tab1 _) as [[[h tab2] o2]|]; [|reflexivity]. cbn [obind].
    replace (section_header true k (p_sect p k) i o (Z.of_nat (length (data p k)))) with (section_header false k (p_sect q k) i o (Z.of_nat (length (data p k)))); [reflexivity|].
    unfold section_header. destruct (Ap k) as (-> & -> & ->). destruct (Aq k) as (-> & -> & ->).
    rewrite !put_big by (destruct k; fits). reflexivity.
  - apply (IH tab ss); auto; cbn [length] in *; lia.
Qed.

Lemma table_length big k t : Forall (entry_ok (layout k)) t -> length (table_bytes big (layout k) t) = (length t * total (layout k))%nat.
Proof.
  intros F. unfold table_bytes. rewrite (concat_length (total (layout k))); [rewrite map_length; reflexivity|].
  apply Forall_map. eapply Forall_impl; [|exact F]. intros e H. apply entry_length, H.
Qed.

Lemma images_swap T pl pb : container_ok pl -> swappable pl -> images T pl pb -> forall k R R', have pl k = true ->
  swap_data true R k (p_sect pl k) = swap_data false R' k (p_sect pb k).
Proof.
  intros (_ & _ & _ & _ & At & _ & _ & Fi & _) [F1 D0] (_ & _ & _ & _ & Eq & Tb) k R R' Hk.
  cbn [swap_data]. change (s_data (p_sect pb k)) with (data pb k).
  destruct (At k) as (_ & Ee & _ & Bk & _).
  assert (G : forall d, (forall fl ad al, swap_data true R k (mkSect fl (sh_entsize0 k) ad (data pl k) al) = Some d) -> swap_data true R k (p_sect pl k) = Some d).
  { intros d H. unfold data in H. destruct (p_sect pl k) as [fl en ad d0 al]. cbn [s_entsize s_data] in *. subst en. apply H. }
  apply G. intros fl ad al.
  assert (K : (k = KText \/ k = KRo \/ k = KStr) \/ is_table k \/ k = KFiles \/ k = KDbg) by (unfold is_table; destruct k; tauto).
  destruct K as [K|[K|[K|K]]].
  - rewrite (Eq k) by tauto. destruct K as [-> |[-> | ->]]; reflexivity.
  - destruct (Tb k (or_introl K)) as (Fo & -> & ->). apply swap_table; assumption.
  - subst k. destruct (Tb KFiles (or_intror eq_refl)) as (Fo & El & Eb).
    rewrite swap_one_file by assumption. f_equal. rewrite El, Eb.
    rewrite El in F1. rewrite (table_length false KFiles (T KFiles) Fo) in F1. change (total (layout KFiles)) with 4%nat in F1.
    destruct (T KFiles) as [|e [|e2 t]]; [reflexivity| |cbn [length] in F1; lia].
    apply Forall_inv in Fo. unfold table_bytes. cbn [map concat]. rewrite !app_nil_r.
    pose proof (revs_entry false (layout KFiles) e Fo) as X. cbn [negb] in X. rewrite <- X. cbn [layout]. rewrite revs_last; [reflexivity|].
    apply (entry_length false [4%nat] e Fo).
  - subst k. unfold have in Hk. rewrite D0 in Hk. discriminate Hk.
Qed.

Lemma images_length T pl pb : images T pl pb -> forall k, length (data pl k) = length (data pb k).
Proof.
  intros (_ & _ & _ & _ & Eq & Tb) k.
  assert (K : (k = KText \/ k = KRo \/ k = KStr \/ k = KDbg) \/ is_table k \/ k = KFiles) by (unfold is_table; destruct k; tauto).
  destruct K as [K|K]; [rewrite (Eq k K); reflexivity|]. destruct (Tb k K) as (F & -> & ->). rewrite !table_length by exact F. reflexivity.
Qed.

Lemma portable T pl pb : container_ok pl -> container_ok pb -> swappable pl -> images T pl pb -> write_file true pl = write_file false pb.
Proof.
  intros Okl Okb Sw Im. pose proof (images_length T pl pb Im) as L. pose proof (images_swap T pl pb Okl Sw Im) as S.
  assert (W2 : plain_width 2) by (left; reflexivity). assert (W4 : plain_width 4) by (right; reflexivity).
  assert (Attr : forall p, container_ok p -> forall k, s_flags (p_sect p k) = sh_flags0 k /\ s_entsize (p_sect p k) = sh_entsize0 k /\ s_addr (p_sect p k) = 0).
  { intros p (_ & _ & _ & _ & At & _) k. destruct (At k) as (A1 & A2 & A3 & _). repeat split; assumption. }
  pose proof (Attr _ Okl) as Al. pose proof (Attr _ Okb) as Ab. clear Attr.
  destruct Im as (Ty & Ar & Nm & En & Eq & Tb).
  destruct Okl as (Ty0 & Ar0 & Nm0 & En0 & _ & _ & _ & _ & _ & St & Sz).
  cbn [fold_right] in Sz. change (fold_right _ 0 order) with (fold_right (fun k n => Z.of_nat (length (data pl k)) + n) 0 order) in Sz.
  assert (Sz' : Z.of_nat (length (data pl KStr)) + sum pl order + 256 < 2 ^ 32) by (rewrite <- sum_fold; exact Sz). clear Sz.
  pose proof (sum_nonneg pl order) as S0. apply string_table_ok in St. destruct St as (ss & T0).
  assert (Hh : forall k, have pl k = have pb k).
  { intros k. unfold have. specialize (L k). destruct (data pl k), (data pb k); reflexivity || discriminate L. }
  unfold write_file. rewrite <- (filter_ext _ _ Hh), <- (Eq KStr) by tauto.
  set (count := length (filter (have pl) order)). assert (Lc : (count <= 7)%nat) by (exact (filter_le (have pl) order)).
  assert (Lo : length order = 7%nat) by reflexivity.
  rewrite <- (write_headers_host pl pb order (data pl KStr) ss) by (auto; unfold FH_SIZE, SH_SIZE; lia).
  destruct (headers_ok true pl Al order (data pl KStr) ss (FH_SIZE + (1 + Z.of_nat count) * SH_SIZE) T0) as (h & tab & more & -> & T1 & _ & L1 & _).
  { unfold FH_SIZE, SH_SIZE. lia. } { unfold FH_SIZE, SH_SIZE. lia. }
  cbn [obind]. destruct (add_name tab (ss ++ more) KStr T1) as (tab' & name & more2 & -> & _ & _ & L2 & _ & Hn). cbn [obind].
  assert (D : forall ks, write_data true pl ks = write_data false pb ks).
  { induction ks as [|k ks IH]; cbn [write_data]; [reflexivity|]. rewrite <- Hh. destruct (have pl k) eqn:E; [|exact IH].
    rewrite (S k _ (Z.of_nat (length (data pb KRel))) E), IH. reflexivity. }
  rewrite D. destruct (write_data false pb order) as [d|]; [|reflexivity]. cbn [obind]. f_equal.
  unfold file_header, section_header. rewrite Ty, Ar, Nm, En. destruct (Al KStr) as (-> & -> & ->). destruct (Ab KStr) as (-> & -> & ->).
  rewrite !(put_big _ 2) by fits. rewrite !(put_big _ 4) by (rewrite <- ?Nm, <- ?En; fits). reflexivity.
Qed.

Lemma portable_both T pl pb : container_ok pl -> container_ok pb -> swappable pl -> images T pl pb ->
  exists file ql qb, write_file true pl = Some file /\ write_file false pb = Some file /\
    read_file true file = ROk ql /\ same_object pl ql /\ read_file false file = ROk qb /\ same_object pb qb.
Proof.
  intros Okl Okb Sw Im. pose proof (portable T pl pb Okl Okb Sw Im) as E.
  destruct (container_round_trip true pl Okl (fun _ => Sw)) as (f1 & ql & W1 & R1 & S1).
  destruct (container_round_trip false pb Okb) as (f2 & qb & W2 & R2 & S2); [discriminate|].
  rewrite W1, W2 in E. injection E as <-. exists f1, ql, qb. repeat (split; [assumption|]). assumption.
Qed.

(** ** Strings *)

Lemma strings_retrieved ops1 ops2 : Forall (fun s => text (added s)) (ops1 ++ ops2) ->
  exists tab1 is1 tab2 is2, additions [] ops1 = Some (tab1, is1) /\ additions tab1 ops2 = Some (tab2, is2) /\
    Forall2 (fun s i => string_at tab2 i (added s) /\ get_string tab2 i = Some (added s)) (ops1 ++ ops2) (is1 ++ is2) /\
    string_table tab2 /\ exists suffix, tab2 = tab1 ++ suffix.
Proof.
  intros F. apply Forall_app in F. destruct F as [F1 F2].
  destruct (additions_spec ops1 [] [] (or_introl (conj eq_refl eq_refl)) F1) as (tab1 & is1 & more1 & E1 & T1 & X1 & _). cbn [app] in *.
  destruct (additions_spec ops2 tab1 more1 T1 F2) as (tab2 & is2 & more2 & E2 & T2 & X2 & Suf).
  exists tab1, is1, tab2, is2. split; [exact E1|]. split; [exact E2|]. split; [|split; [apply string_table_ok; eexists; exact T2|exact Suf]].
  assert (N : ops1 ++ ops2 <> [] -> tab2 <> []).
  { intros NE ->. destruct Suf as [suf Es]. symmetry in Es. apply app_eq_nil in Es. destruct Es as [-> _].
    destruct T2 as [[_ H]|[_ H]]; [|rewrite pack_cons in H; discriminate H]. apply app_eq_nil in H. destruct H as [-> ->].
    destruct ops1 as [|s ops1].
    - destruct ops2 as [|s ops2]; [apply NE; reflexivity|]. cbn [additions] in E2.
      destruct (add_string [] s) as [[t i]|] eqn:A; [|discriminate E2]. apply Forall_cons_iff in F2. destruct F2 as [Ts F2].
      destruct (add_index [] s [] (or_introl (conj eq_refl eq_refl)) Ts) as (t' & i' & m' & A' & T' & _). rewrite A in A'. injection A' as <- <-.
      destruct (additions_spec ops2 t ([] ++ m') (or_intror T') F2) as (t2 & j2 & m2 & A2 & _ & _ & (s2 & ->)). rewrite A2 in E2.
      injection E2 as E2 _. apply app_eq_nil in E2. destruct E2 as [-> _]. destruct T' as [_ T']. rewrite pack_cons in T'. discriminate T'.
    - cbn [additions] in E1.
      destruct (add_string [] s) as [[t i]|] eqn:A; [|discriminate E1]. apply Forall_cons_iff in F1. destruct F1 as [Ts F1].
      destruct (add_index [] s [] (or_introl (conj eq_refl eq_refl)) Ts) as (t' & i' & m' & A' & T' & _). rewrite A in A'. injection A' as <- <-.
      destruct (additions_spec ops1 t ([] ++ m') (or_intror T') F1) as (t2 & j2 & m2 & A2 & _ & _ & (s2 & ->)). rewrite A2 in E1.
      injection E1 as E1 _. apply app_eq_nil in E1. destruct E1 as [-> _]. destruct T' as [_ T']. rewrite pack_cons in T'. discriminate T'. }
  assert (X : Forall2 (fun s i => index_of (more1 ++ more2) (added s) i) (ops1 ++ ops2) (is1 ++ is2)).
  { apply Forall2_app; [|exact X2]. clear - X1. induction X1 as [|s i ops is H X1 IH]; constructor; [apply index_of_more, H|exact IH]. }
  assert (F : Forall (fun s => text (added s)) (ops1 ++ ops2)) by (apply Forall_app; split; assumption).
  revert N X F. generalize (ops1 ++ ops2) (is1 ++ is2). intros ops is N X F. assert (NE : ops = [] \/ tab2 <> []).
  { destruct ops; [left; reflexivity|right; apply N; discriminate]. } clear N. revert F. induction X as [|s i ops is H X IH]; intros F; constructor.
  - destruct NE as [NE|NE]; [discriminate NE|]. apply Forall_cons_iff in F. destruct F as [Ts _].
    exact (index_at tab2 _ _ _ T2 Ts NE H).
  - apply Forall_cons_iff in F. apply IH; [|apply F]. destruct NE as [NE|NE]; [discriminate NE|right; exact NE].
Qed.

Lemma strings_shared ops tab is a b s t i j : Forall (fun s => text (added s)) ops -> additions [] ops = Some (tab, is) ->
  nth_error ops a = Some s -> nth_error ops b = Some t -> nth_error is a = Some i -> nth_error is b = Some j ->
  (i = j <-> added s = added t).
Proof.
  intros F E Ea Eb Ia Ib.
  destruct (additions_spec ops [] [] (or_introl (conj eq_refl eq_refl)) F) as (tab' & is' & more & E' & T & X & _). rewrite E in E'. injection E' as <- <-.
  cbn [app] in *.
  assert (G : forall a s i, nth_error ops a = Some s -> nth_error is a = Some i -> index_of more (added s) i /\ text (added s)).
  { clear - X F. induction X as [|s0 i0 ops is H X IH]; intros [|a] s i Es Ei; cbn in Es, Ei; try discriminate.
    - injection Es as ->. injection Ei as ->. split; [exact H|apply Forall_inv in F; exact F].
    - apply Forall_inv_tail in F. exact (IH F a s i Es Ei). }
  destruct (G a s i Ea Ia) as [Xs Ts]. destruct (G b t j Eb Ib) as [Xt Tt]. split.
  - intros <-. destruct T as [[_ ->]|[F0 _]]; [|exact (index_of_inj more _ _ i F0 Ts Tt Xs Xt)]. apply (index_of_inj [] _ _ i); auto.
  - intros Eq. rewrite Eq in Xs. exact (index_of_fun more _ _ _ Xs Xt).
Qed.

(** ** Witnesses *)

Definition sect_of (k : kind) (d : list Z) : sect := mkSect (sh_flags0 k) (sh_entsize0 k) 0 d 4096.

Definition sample (big : bool) (names : list Z) (dbg : list Z) : poff :=
  mkPoff 2 1 0 6 (fun k => sect_of k
    match k with
    | KText => [6; 128; 0; 5; 1; 0]
    | KRo => [72; 105]
    | KSym => table_bytes big (layout KSym) [[1; 0; 0; 0; 5; 258; 0]]
    | KStr => concat (map (fun s => s ++ [0]) [[]; [97; 46; 112]; [112]])
    | KRel => table_bytes big (layout KRel) [[4; 513]; [9; 257]]
    | KFiles => table_bytes big (layout KFiles) (map (fun n => [n]) names)
    | KLines => table_bytes big (layout KLines) [[3; 0; 0]; [300; 0; 4]]
    | KDbg => dbg
    end).

Lemma sample_ok big names dbg : (length names <= 16)%nat -> (length dbg <= 1024)%nat -> bytes dbg -> container_ok (sample big names dbg).
Proof.
  intros L1 L2 B. assert (Lf : length (table_bytes big [4%nat] (map (fun n => [n]) names)) = (length names * 4)%nat).
  { unfold table_bytes. rewrite (concat_length 4), !map_length; [reflexivity|]. rewrite map_map. apply Forall_map, Forall_forall. intros n _.
    cbn [entry_bytes]. rewrite app_length. unfold field_bytes. destruct big; rewrite ?rev_length, le_length; reflexivity. }
  assert (Bf : bytes (table_bytes big [4%nat] (map (fun n => [n]) names))).
  { unfold table_bytes. clear. induction names as [|n names IH]; [constructor|]. cbn [map concat]. apply bytes_app. split; [|exact IH].
    cbn [entry_bytes]. rewrite app_nil_r. unfold field_bytes. destruct big; [apply bytes_rev|]; apply le_bytes. }
  assert (Fb : forall l, forallb (fun b => (0 <=? b) && (b <? 256)) l = true -> bytes l).
  { intros l H. apply Forall_forall. intros x I. rewrite forallb_forall in H. specialize (H x I). lia. }
  unfold container_ok. cbn [p_type p_arch p_name p_entry sample].
  split; [lia|]. split; [lia|]. split; [lia|]. split; [lia|]. split.
  { intros k. split; [reflexivity|]. split; [reflexivity|]. split; [reflexivity|].
    unfold data. cbn [p_sect sample sect_of s_data s_alloc]. destruct k; try (split; [apply Fb; destruct big; reflexivity|destruct big; vm_compute; discriminate]).
    - cbn [layout]. split; [exact Bf|]. rewrite Lf. lia.
    - split; [exact B|]. lia. }
  split; [exists 1%nat; destruct big; reflexivity|]. split; [exists 2%nat; destruct big; reflexivity|].
  split; [exists (length names); exact Lf|]. split; [exists 2%nat; destruct big; reflexivity|]. split.
  - right. exists [[97; 46; 112]; [112]]. split; [repeat constructor; discriminate|reflexivity].
  - unfold order, data. cbn [fold_right p_sect sample sect_of s_data layout]. rewrite Lf.
    replace (length (table_bytes big _ [[1; 0; 0; 0; 5; 258; 0]])) with 16%nat by (destruct big; reflexivity).
    replace (length (table_bytes big _ [[4; 513]; [9; 257]])) with 16%nat by (destruct big; reflexivity).
    replace (length (table_bytes big _ [[3; 0; 0]; [300; 0; 4]])) with 16%nat by (destruct big; reflexivity).
    cbn [length map concat app]. lia.
Qed.
