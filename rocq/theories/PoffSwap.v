(** Byte order of fields and tables. *)

From Coq Require Import ZArith Bool List Lia ZifyBool.
From Verif Require Import Words PoffModel PoffSpec.
Import ListNotations.
Open Scope Z_scope.
Local Ltac Zify.zify_post_hook ::= Z.div_mod_to_equations.

(** ** Fields *)

Lemma le_length w : forall v, length (le w v) = w.
Proof. induction w as [|w IH]; intros v; cbn [le length]; [reflexivity|]. rewrite IH. reflexivity. Qed.

Lemma le_bytes w : forall v, bytes (le w v).
Proof.
  induction w as [|w IH]; intros v; cbn [le]; [constructor|]. constructor; [|apply IH]. apply Z.mod_pos_bound. lia.
Qed.

Lemma de_bounds l : bytes l -> 0 <= de l < 256 ^ Z.of_nat (length l).
Proof.
  intros B. induction B as [|b l Hb B IH]; [cbn; lia|]. cbn [de length]. rewrite Nat2Z.inj_succ, Z.pow_succ_r by lia. lia.
Qed.

Lemma le_de l : bytes l -> le (length l) (de l) = l.
Proof.
  intros B. induction B as [|b l Hb B IH]; [reflexivity|]. cbn [de length le].
  replace ((b + 256 * de l) mod 256) with b by lia. replace ((b + 256 * de l) / 256) with (de l) by lia. rewrite IH. reflexivity.
Qed.

Lemma de_le w : forall v, 0 <= v < 256 ^ Z.of_nat w -> de (le w v) = v.
Proof.
  induction w as [|w IH]; intros v Hv; cbn [le de]; [cbn in Hv; lia|].
  rewrite Nat2Z.inj_succ, Z.pow_succ_r in Hv by lia. rewrite IH; lia.
Qed.

Lemma lor_add a b k : 0 <= k -> 0 <= b < 2 ^ k -> Z.lor (a * 2 ^ k) b = a * 2 ^ k + b.
Proof.
  intros Hk Hb. assert (D : Z.land (a * 2 ^ k) b = 0).
  { apply Z.bits_inj'. intros n Hn. rewrite Z.land_spec, Z.bits_0.
    destruct (Z_lt_le_dec n k); [rewrite Z.mul_pow2_bits_low by lia; reflexivity|].
    replace (Z.testbit b n) with false; [apply andb_false_r|]. symmetry. apply Z.testbit_false; [lia|].
    rewrite Z.div_small; [reflexivity|]. split; [lia|]. apply Z.lt_le_trans with (2 ^ k); [lia|]. apply Z.pow_le_mono_r; lia. }
  rewrite Z.add_nocarry_lxor, Z.lxor_lor by exact D. reflexivity.
Qed.

Lemma land_byte x k : 0 <= k -> Z.land x (255 * 2 ^ k) = x / 2 ^ k mod 256 * 2 ^ k.
Proof.
  intros Hk. change 256 with (2 ^ 8). rewrite <- Z.land_ones by lia. change (Z.ones 8) with 255.
  rewrite <- Z.shiftr_div_pow2, <- !Z.shiftl_mul_pow2 by lia. apply Z.bits_inj'. intros n Hn.
  rewrite Z.land_spec. destruct (Z_lt_le_dec n k).
  - rewrite !Z.shiftl_spec_low by lia. apply andb_false_r.
  - rewrite !Z.shiftl_spec by lia. rewrite Z.land_spec, Z.shiftr_spec by lia. f_equal. f_equal. lia.
Qed.

Lemma swap16_de a b : 0 <= a < 256 -> 0 <= b < 256 -> swap16 (de [a; b]) = de [b; a].
Proof.
  intros Ha Hb. unfold swap16. cbn [de]. rewrite Z.shiftr_div_pow2, Z.shiftl_mul_pow2 by lia. rewrite Z.lor_comm, lor_add by lia.
  unfold u16. change (2 ^ 8) with 256. lia.
Qed.

Lemma swap32_de a b c d : 0 <= a < 256 -> 0 <= b < 256 -> 0 <= c < 256 -> 0 <= d < 256 ->
  swap32 (de [a; b; c; d]) = de [d; c; b; a].
Proof.
  intros Ha Hb Hc Hd. unfold swap32. cbn [de]. set (v := a + _).
  change 0x0000ff00 with (255 * 2 ^ 8). change 0x00ff0000 with (255 * 2 ^ 16). rewrite !land_byte by lia.
  rewrite !Z.shiftr_div_pow2, !Z.shiftl_mul_pow2 by lia. unfold u32.
  replace (v / 2 ^ 24) with d by (unfold v; change (2 ^ 24) with 16777216; lia).
  replace (v / 2 ^ 8 / 2 ^ 8 mod 256) with c.
  2:{ rewrite Z.div_div by (vm_compute; congruence || reflexivity). change (2 ^ 8 * 2 ^ 8) with 65536.
      replace (v / 65536) with (c + 256 * d) by (unfold v; lia). lia. }
  replace ((v * 2 ^ 8) mod 4294967296 / 2 ^ 16 mod 256) with b.
  2:{ unfold v. change (2 ^ 8) with 256. change (2 ^ 16) with 65536.
      replace ((a + 256 * (b + 256 * (c + 256 * (d + 256 * 0)))) * 256) with ((a + 256 * b + 65536 * c) * 256 + d * 4294967296) by ring.
      rewrite Z.mod_add, (Z.mod_small _ 4294967296) by lia.
      replace ((a + 256 * b + 65536 * c) * 256 / 65536) with (b + 256 * c) by lia. lia. }
  replace ((v * 2 ^ 24) mod 4294967296) with (a * 2 ^ 24).
  2:{ unfold v. change (2 ^ 24) with 16777216.
      replace ((a + 256 * (b + 256 * (c + 256 * (d + 256 * 0)))) * 16777216) with (a * 16777216 + (b + 256 * c + 65536 * d) * 4294967296) by ring.
      rewrite Z.mod_add, Z.mod_small by lia. reflexivity. }
  rewrite (Z.lor_comm d), lor_add by lia. rewrite (Z.lor_comm _ (b * 2 ^ 16)), lor_add by lia.
  rewrite (Z.lor_comm _ (a * 2 ^ 24)), lor_add by lia. change (2 ^ 8) with 256. change (2 ^ 16) with 65536. change (2 ^ 24) with 16777216. ring.
Qed.

Definition plain_width (w : nat) : Prop := w = 2%nat \/ w = 4%nat.

Lemma swap_rev w l : plain_width w -> length l = w -> bytes l -> poff_swap true w (de l) = de (rev l).
Proof.
  intros [-> | ->] L B; cbn [poff_swap].
  - destruct l as [|a [|b [|]]]; try discriminate L. apply Forall_cons_iff in B. destruct B as [Ha B]. apply Forall_cons_iff in B. destruct B as [Hb _].
    apply swap16_de; assumption.
  - destruct l as [|a [|b [|c [|d [|]]]]]; try discriminate L.
    apply Forall_cons_iff in B. destruct B as [Ha B]. apply Forall_cons_iff in B. destruct B as [Hb B].
    apply Forall_cons_iff in B. destruct B as [Hc B]. apply Forall_cons_iff in B. destruct B as [Hd _]. apply swap32_de; assumption.
Qed.

Lemma bytes_rev l : bytes l -> bytes (rev l).
Proof. intros B. apply Forall_rev, B. Qed.

Lemma bytes_app a b : bytes (a ++ b) <-> bytes a /\ bytes b.
Proof. apply Forall_app. Qed.

Lemma bytes_firstn n l : bytes l -> bytes (firstn n l).
Proof. intros B. rewrite <- (firstn_skipn n l) in B. apply bytes_app in B. apply B. Qed.

Lemma bytes_skipn n l : bytes l -> bytes (skipn n l).
Proof. intros B. rewrite <- (firstn_skipn n l) in B. apply bytes_app in B. apply B. Qed.

Lemma put_big sw w v : plain_width w -> 0 <= v < 256 ^ Z.of_nat w -> put sw w v = rev (le w v).
Proof.
  intros W Hv. unfold put, host. destruct sw; [|destruct W as [-> | ->]; reflexivity].
  rewrite <- (de_le w v Hv) at 1. rewrite (swap_rev w); [|exact W|apply le_length|apply le_bytes].
  transitivity (le (length (rev (le w v))) (de (rev (le w v)))); [rewrite rev_length, le_length; reflexivity|].
  apply le_de, bytes_rev, le_bytes.
Qed.

Lemma put_length sw w v : length (put sw w v) = w.
Proof. unfold put, host. destruct sw; rewrite ?rev_length; apply le_length. Qed.

Lemma get_big sw w l : plain_width w -> (w <= length l)%nat -> bytes l -> get sw w l = de (rev (firstn w l)).
Proof.
  intros W L B. unfold get, unhost. destruct sw.
  - apply swap_rev; [exact W|rewrite firstn_length; lia|apply bytes_firstn, B].
  - destruct W as [-> | ->]; reflexivity.
Qed.

(** A field written and read, on hosts of either order *)
Lemma get_put sw sw' w v rest : plain_width w -> 0 <= v < 256 ^ Z.of_nat w -> get sw' w (put sw w v ++ rest) = v.
Proof.
  intros W Hv.
  assert (E : forall r, get sw' w (rev (le w v) ++ r) = v).
  { intros r. transitivity (get sw' w (rev (le w v))).
    - unfold get. rewrite firstn_app, rev_length, le_length, Nat.sub_diag. cbn [firstn]. rewrite app_nil_r. reflexivity.
    - rewrite get_big; [|exact W|rewrite rev_length, le_length; lia|apply bytes_rev, le_bytes].
      rewrite firstn_all2 by (rewrite rev_length, le_length; lia). rewrite rev_involutive. apply de_le, Hv. }
  rewrite put_big by assumption. apply E.
Qed.

(** ** Tables *)

Lemma swap_field_mid w k alloc pre b post : plain_width w -> length b = w -> bytes b -> length pre = k ->
  swap_field w k alloc (pre ++ b ++ post) = Some (pre ++ rev b ++ post).
Proof.
  intros W L B <-. unfold swap_field. replace (length pre + w <=? length (pre ++ b ++ post))%nat with true.
  2:{ rewrite !app_length. lia. }
  rewrite firstn_app, firstn_all, Nat.sub_diag. cbn [firstn]. rewrite app_nil_r.
  rewrite skipn_app, skipn_all, Nat.sub_diag. cbn [app skipn]. rewrite firstn_app, L, Nat.sub_diag. cbn [firstn]. rewrite app_nil_r, <- L, firstn_all.
  rewrite (swap_rev (length b)); [|rewrite L; exact W|reflexivity|exact B].
  rewrite <- (rev_length b) at 1. rewrite le_de by (apply bytes_rev, B).
  rewrite skipn_app, skipn_all2 by lia. cbn [app]. replace (length pre + length b - length pre)%nat with (length b) by lia.
  rewrite skipn_app, skipn_all, Nat.sub_diag. reflexivity.
Qed.

(** The fields of an entry, each reversed *)
Fixpoint revs (l : list nat) (c : list Z) : list Z :=
  match l with [] => [] | w :: l' => rev (firstn w c) ++ revs l' (skipn w c) end.

Definition total (l : list nat) : nat := fold_right Nat.add 0%nat l.

Lemma revs_length l : forall c, length c = total l -> length (revs l c) = total l.
Proof.
  induction l as [|w l IH]; intros c L; cbn [revs total fold_right] in *; [reflexivity|].
  rewrite app_length, rev_length, firstn_length, IH by (rewrite skipn_length; unfold total; lia). unfold total. lia.
Qed.

Lemma revs_revs l : forall c, length c = total l -> revs l (revs l c) = c.
Proof.
  induction l as [|w l IH]; intros c L; cbn [revs total fold_right] in *; [destruct c; [reflexivity|discriminate L]|].
  assert (Lf : length (rev (firstn w c)) = w) by (rewrite rev_length, firstn_length; lia).
  rewrite firstn_app, Lf, Nat.sub_diag. cbn [firstn]. rewrite app_nil_r, firstn_all2 by lia. rewrite rev_involutive.
  rewrite skipn_app, Lf, Nat.sub_diag, skipn_all2 by lia. cbn [app skipn].
  rewrite IH by (rewrite skipn_length; unfold total; lia). apply firstn_skipn.
Qed.

Lemma revs_bytes l : forall c, bytes c -> bytes (revs l c).
Proof.
  induction l as [|w l IH]; intros c B; cbn [revs]; [constructor|]. apply bytes_app. split; [apply bytes_rev, bytes_firstn, B|apply IH, bytes_skipn, B].
Qed.

Lemma revs_app w l a b : length a = w -> revs (w :: l) (a ++ b) = rev a ++ revs l b.
Proof.
  intros L. cbn [revs]. rewrite firstn_app, L, Nat.sub_diag, firstn_all2 by lia. cbn [firstn]. rewrite app_nil_r.
  rewrite skipn_app, L, Nat.sub_diag, skipn_all2 by lia. reflexivity.
Qed.

Lemma revs_last w a : length a = w -> revs [w] a = rev a.
Proof. intros L. rewrite <- (app_nil_r a) at 1. rewrite revs_app by exact L. apply app_nil_r. Qed.

Lemma revs_entry big l : forall e, entry_ok l e -> revs l (entry_bytes big l e) = entry_bytes (negb big) l e.
Proof.
  intros e F. induction F as [|w v l e Hv F IH]; [reflexivity|]. cbn [entry_bytes revs].
  assert (Lf : length (field_bytes big w v) = w) by (unfold field_bytes; destruct big; rewrite ?rev_length; apply le_length).
  rewrite firstn_app, Lf, Nat.sub_diag. cbn [firstn]. rewrite app_nil_r, firstn_all2 by lia.
  rewrite skipn_app, Lf, Nat.sub_diag, skipn_all2 by lia. cbn [app skipn]. rewrite IH. f_equal.
  unfold field_bytes. destruct big; cbn [negb]; [apply rev_involutive|reflexivity].
Qed.

Lemma entry_length big l e : entry_ok l e -> length (entry_bytes big l e) = total l.
Proof.
  intros F. induction F as [|w v l e Hv F IH]; [reflexivity|]. cbn [entry_bytes total fold_right]. rewrite app_length, IH. unfold field_bytes, total.
  destruct big; rewrite ?rev_length, le_length; lia.
Qed.

Lemma entry_bytes_ok big l e : entry_ok l e -> bytes (entry_bytes big l e).
Proof.
  intros F. induction F as [|w v l e Hv F IH]; [constructor|]. cbn [entry_bytes]. apply bytes_app. split; [|exact IH].
  unfold field_bytes. destruct big; [apply bytes_rev|]; apply le_bytes.
Qed.

Definition fields (k : kind) : list (nat * nat) :=
  match k with KSym => sym_fields | KRel => rel_fields | KFiles => file_fields | KLines => line_fields | _ => [] end.

Lemma split_at {A} n (l : list A) m : length l = (n + m)%nat -> exists a b, l = a ++ b /\ length a = n /\ length b = m.
Proof.
  intros L. exists (firstn n l), (skipn n l). rewrite firstn_skipn, firstn_length, skipn_length. split; [reflexivity|]. lia.
Qed.

Lemma swap_entry k alloc pre c post : is_table k \/ k = KFiles -> length c = total (layout k) -> bytes c ->
  swap_fields (fields k) (length pre) alloc (pre ++ c ++ post) = Some (pre ++ revs (layout k) c ++ post).
Proof.
  assert (W2 : plain_width 2) by (left; reflexivity). assert (W4 : plain_width 4) by (right; reflexivity).
  intros K L B. destruct K as [[-> |[-> | ->]]| ->]; cbn [fields layout] in *.
  - change (total [1%nat; 1%nat; 1%nat; 1%nat; 4%nat; 4%nat; 4%nat]) with (4 + (4 + (4 + 4)))%nat in L.
    destruct (split_at _ c _ L) as (a & c1 & -> & La & L1). destruct (split_at _ c1 _ L1) as (b & c2 & -> & Lb & L2).
    destruct (split_at _ c2 _ L2) as (d & e & -> & Ld & Le). apply bytes_app in B. destruct B as [Ba B]. apply bytes_app in B. destruct B as [Bb B].
    apply bytes_app in B. destruct B as [Bd Be]. unfold sym_fields. cbn [swap_fields].
    replace (pre ++ (a ++ b ++ d ++ e) ++ post) with ((pre ++ a) ++ b ++ (d ++ e ++ post)) by (rewrite <- !app_assoc; reflexivity).
    rewrite (swap_field_mid 4) by (rewrite ?app_length; auto; lia). cbn [obind].
    replace ((pre ++ a) ++ rev b ++ d ++ e ++ post) with ((pre ++ a ++ rev b) ++ d ++ (e ++ post)) by (rewrite <- !app_assoc; reflexivity).
    rewrite (swap_field_mid 4) by (rewrite ?app_length, ?rev_length; auto; lia). cbn [obind].
    replace ((pre ++ a ++ rev b) ++ rev d ++ e ++ post) with ((pre ++ a ++ rev b ++ rev d) ++ e ++ post) by (rewrite <- !app_assoc; reflexivity).
    rewrite (swap_field_mid 4) by (rewrite ?app_length, ?rev_length; auto; lia). cbn [obind]. f_equal. rewrite <- !app_assoc. f_equal.
    destruct a as [|a0 [|a1 [|a2 [|a3 [|]]]]]; try discriminate La.
    change ([a0; a1; a2; a3] ++ b ++ d ++ e) with ([a0] ++ [a1] ++ [a2] ++ [a3] ++ b ++ d ++ e).
    rewrite !(revs_app 1) by reflexivity. rewrite !(revs_app 4), revs_last by assumption. rewrite <- !app_assoc. reflexivity.
  - change (total [4%nat; 4%nat]) with (4 + 4)%nat in L.
    destruct (split_at _ c _ L) as (a & b & -> & La & Lb). apply bytes_app in B. destruct B as [Ba Bb]. unfold rel_fields. cbn [swap_fields].
    replace (pre ++ (a ++ b) ++ post) with (pre ++ a ++ (b ++ post)) by (rewrite <- !app_assoc; reflexivity).
    rewrite (swap_field_mid 4) by (rewrite ?app_length; auto; lia). cbn [obind].
    replace (pre ++ rev a ++ b ++ post) with ((pre ++ rev a) ++ b ++ post) by (rewrite <- !app_assoc; reflexivity).
    rewrite (swap_field_mid 4) by (rewrite ?app_length, ?rev_length; auto; lia). cbn [obind]. f_equal. rewrite <- !app_assoc. f_equal.
    rewrite revs_app, revs_last by assumption. rewrite <- !app_assoc. reflexivity.
  - change (total [2%nat; 2%nat; 4%nat]) with (2 + (2 + 4))%nat in L.
    destruct (split_at _ c _ L) as (a & c1 & -> & La & L1). destruct (split_at _ c1 _ L1) as (b & d & -> & Lb & Ld).
    apply bytes_app in B. destruct B as [Ba B]. apply bytes_app in B. destruct B as [Bb Bd]. unfold line_fields. cbn [swap_fields].
    replace (pre ++ (a ++ b ++ d) ++ post) with (pre ++ a ++ (b ++ d ++ post)) by (rewrite <- !app_assoc; reflexivity).
    rewrite (swap_field_mid 2) by (rewrite ?app_length; auto; lia). cbn [obind].
    replace (pre ++ rev a ++ b ++ d ++ post) with ((pre ++ rev a) ++ b ++ (d ++ post)) by (rewrite <- !app_assoc; reflexivity).
    rewrite (swap_field_mid 2) by (rewrite ?app_length, ?rev_length; auto; lia). cbn [obind].
    replace ((pre ++ rev a) ++ rev b ++ d ++ post) with ((pre ++ rev a ++ rev b) ++ d ++ post) by (rewrite <- !app_assoc; reflexivity).
    rewrite (swap_field_mid 4) by (rewrite ?app_length, ?rev_length; auto; lia). cbn [obind]. f_equal. rewrite <- !app_assoc. f_equal.
    rewrite !revs_app, revs_last by assumption. rewrite <- !app_assoc. reflexivity.
  - change (total [4%nat]) with 4%nat in L. unfold file_fields. cbn [swap_fields].
    rewrite (swap_field_mid 4) by (rewrite ?Nat.add_0_r; auto). cbn [obind]. rewrite revs_last by exact L. reflexivity.
Qed.

Lemma swap_loop_table k alloc : is_table k -> forall cs n pre, Forall (fun c => length c = total (layout k) /\ bytes c) cs -> (length cs < n)%nat ->
  swap_loop n (fields k) 1 (Z.of_nat (length pre)) (Z.of_nat (total (layout k))) (Z.of_nat (length (pre ++ concat cs))) alloc (pre ++ concat cs) =
  Some (pre ++ concat (map (revs (layout k)) cs)).
Proof.
  intros K. assert (T : (0 < total (layout k))%nat) by (destruct K as [-> |[-> | ->]]; cbn; lia).
  induction cs as [|c cs IH]; intros [|n] pre F Ln; cbn [length] in Ln; try lia; cbn [swap_loop].
  - replace (Z.of_nat (length pre) <? _) with false by (cbn [concat]; rewrite app_nil_r; lia). reflexivity.
  - apply Forall_cons_iff in F. destruct F as [[L B] F]. cbn [concat map].
    replace (Z.of_nat (length pre) <? _) with true by (rewrite !app_length; lia).
    replace (Z.to_nat (1 * Z.of_nat (length pre))) with (length pre) by lia.
    rewrite swap_entry by (auto). cbn [obind].
    specialize (IH n (pre ++ revs (layout k) c) F ltac:(lia)). rewrite <- !app_assoc in IH.
    rewrite app_length, revs_length, Nat2Z.inj_add in IH by exact L.
    replace (length (pre ++ c ++ concat cs)) with (length (pre ++ revs (layout k) c ++ concat cs)).
    2:{ rewrite !app_length, revs_length by exact L. lia. }
    rewrite IH. reflexivity.
Qed.

Lemma chunks n : forall m l, length l = (m * n)%nat -> bytes l ->
  exists cs, l = concat cs /\ Forall (fun c => length c = n /\ bytes c) cs /\ length cs = m.
Proof.
  induction m as [|m IH]; intros l L B; cbn [Nat.mul] in L.
  - exists []. destruct l; [|discriminate L]. repeat split; constructor.
  - destruct (split_at _ l _ L) as (a & b & -> & La & Lb). apply bytes_app in B. destruct B as [Ba Bb].
    destruct (IH b Lb Bb) as (cs & -> & F & Lc). exists (a :: cs). split; [reflexivity|].
    split; [constructor; [split; assumption|exact F]|cbn [length]; rewrite Lc; reflexivity].
Qed.

Lemma concat_length {A} n (cs : list (list A)) : Forall (fun c => length c = n) cs -> length (concat cs) = (length cs * n)%nat.
Proof. intros F. induction F as [|c cs L F IH]; [reflexivity|]. cbn [concat length]. rewrite app_length, IH, L. lia. Qed.

Lemma swap_data_table k relsize flags addr alloc cs : is_table k -> Forall (fun c => length c = total (layout k) /\ bytes c) cs ->
  swap_data true relsize k (mkSect flags (sh_entsize0 k) addr (concat cs) alloc) = Some (concat (map (revs (layout k)) cs)).
Proof.
  intros K F. pose proof (swap_loop_table k alloc K cs (S (length (concat cs))) [] F) as X.
  assert (T : (0 < total (layout k))%nat) by (destruct K as [-> |[-> | ->]]; cbn; lia).
  assert (L : length (concat cs) = (length cs * total (layout k))%nat).
  { apply concat_length. eapply Forall_impl; [|exact F]. intros a [La _]. exact La. }
  specialize (X ltac:(rewrite L; nia)). cbn [app length] in X. unfold swap_data. cbn [s_data s_entsize s_alloc].
  destruct K as [-> |[-> | ->]]; exact X.
Qed.

Lemma map_revs_ok k cs : Forall (fun c => length c = total (layout k) /\ bytes c) cs ->
  Forall (fun c => length c = total (layout k) /\ bytes c) (map (revs (layout k)) cs).
Proof.
  intros F. apply Forall_map. eapply Forall_impl; [|exact F]. intros c [L B]. split; [apply revs_length, L|apply revs_bytes, B].
Qed.

Lemma table_chunks big k t : Forall (entry_ok (layout k)) t ->
  Forall (fun c => length c = total (layout k) /\ bytes c) (map (entry_bytes big (layout k)) t).
Proof.
  intros F. apply Forall_map. eapply Forall_impl; [|exact F]. intros e H. split; [apply entry_length, H|apply entry_bytes_ok, H].
Qed.

Lemma swap_table k t from relsize flags addr alloc : is_table k -> Forall (entry_ok (layout k)) t ->
  swap_data true relsize k (mkSect flags (sh_entsize0 k) addr (table_bytes from (layout k) t) alloc) =
    Some (table_bytes (negb from) (layout k) t).
Proof.
  intros K F. unfold table_bytes. rewrite swap_data_table by (auto using table_chunks). f_equal. f_equal. rewrite map_map.
  apply map_ext_in. intros e I. rewrite Forall_forall in F. apply revs_entry, F, I.
Qed.

(** A file table with one entry *)
Lemma swap_one_file d relsize flags addr alloc : (length d <= 4)%nat -> (exists n, length d = n * 4)%nat -> bytes d ->
  swap_data true relsize KFiles (mkSect flags (sh_entsize0 KFiles) addr d alloc) = Some (rev d).
Proof.
  intros L (n & E) B. destruct n as [|[|n]]; [destruct d; [reflexivity|discriminate E]| |lia].
  unfold swap_data. cbn [s_data s_entsize s_alloc]. change (sh_entsize0 KFiles) with 4.
  assert (L4 : length d = 4%nat) by lia. rewrite L4. change (Z.of_nat 4) with 4. cbn [swap_loop]. change (0 <? 4) with true. change (Z.to_nat (4 * 0)) with 0%nat.
  pose proof (swap_entry KFiles alloc [] d [] (or_intror eq_refl)) as X. cbn [app fields length layout total fold_right] in X.
  rewrite !app_nil_r in X. rewrite X by (auto; lia). cbn [obind swap_loop]. change (0 + 4 <? 4) with false.
  rewrite revs_last by lia. reflexivity.
Qed.
