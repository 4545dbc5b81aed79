(** Reading declarations comes to an end. *)

From Coq Require Import ZArith Bool List Lia ZifyBool.
From Verif Require Import Words ExprModel DeclModel DeclSpec.
Import ListNotations.
Open Scope Z_scope.

(** Words left, with the current one *)
Definition nz (t : Z) : nat := if t =? 0 then 0 else 1.
Definition left_ (d : ds) : nat := (length (rest d) + nz (gTok d))%nat.

(** [m] does not run out of fuel; [P] holds if it returns. *)
Definition wp {A} (m : M A) (d : ds) (P : A -> ds -> Prop) : Prop :=
  match m d with Done a d' => P a d' | NoFuel => False | _ => True end.

Lemma wp_bind {A B} (m : M A) (k : A -> M B) d P : wp m d (fun a d' => wp (k a) d' P) -> wp (bind m k) d P.
Proof. unfold wp, bind. destruct (m d); auto. Qed.
Lemma wp_mono {A} (m : M A) d (P Q : A -> ds -> Prop) : wp m d P -> (forall a d', P a d' -> Q a d') -> wp m d Q.
Proof. unfold wp. intros H I. destruct (m d); auto. Qed.
Lemma wp_ret {A} (a : A) d (P : A -> ds -> Prop) : P a d -> wp (ret a) d P. Proof. auto. Qed.
Lemma wp_ub {A} d (P : A -> ds -> Prop) : wp ub d P. Proof. exact I. Qed.
Lemma wp_hang {A} d (P : A -> ds -> Prop) : wp hang d P. Proof. exact I. Qed.
Lemma wp_nm {A} d (P : A -> ds -> Prop) : wp not_modelled d P. Proof. exact I. Qed.
Lemma wp_token d (P : Z -> ds -> Prop) : P (gTok d) d -> wp token d P. Proof. auto. Qed.

(** Same words, same token *)
Definition still (d d' : ds) : Prop := rest d' = rest d /\ gTok d' = gTok d.
Lemma still_left d d' : still d d' -> left_ d' = left_ d /\ gTok d' = gTok d.
Proof. unfold left_. intros (-> & ->). auto. Qed.
(** Words are only read. *)
Definition on (d d' : ds) : Prop := (left_ d' <= left_ d)%nat.

Lemma wp_next start d (P : unit -> ds -> Prop) : (forall d', (left_ d' + nz (gTok d) <= left_ d)%nat -> P tt d') ->
  wp (fun d => Done tt (next_from start d)) d P.
Proof.
  intros H. unfold wp. apply H.
  assert (N : forall t, (nz t <= 1)%nat) by (intros t; unfold nz; destruct (t =? 0); lia).
  unfold next_from, left_. destruct (rest d) as [|[c|v|v|n] r]; cbn.
  - change (nz 0) with 0%nat. lia.
  - pose proof (N c). lia.
  - pose proof (N tINT_CONST). lia.
  - pose proof (N tCHAR_CONST). lia.
  - destruct (find_sym n start 0 (syms d) None) as [p|]; [destruct (nth_error (syms d) p) as [s|]|]; cbn;
      [pose proof (N (sKind s))|pose proof (N tIDENT)|pose proof (N tIDENT)]; lia.
Qed.
Lemma wp_get d (P : unit -> ds -> Prop) : (forall d', (left_ d' + nz (gTok d) <= left_ d)%nat -> P tt d') -> wp getToken d P.
Proof. apply wp_next. Qed.
Lemma wp_level d (P : unit -> ds -> Prop) : (forall d', (left_ d' + nz (gTok d) <= left_ d)%nat -> P tt d') -> wp getLevelToken d P.
Proof. intros H. unfold getLevelToken. unfold wp. apply (wp_next (gLevel d) d P H). Qed.

(** What leaves words and token as they are *)
Definition quiet {A} (m : M A) : Prop := forall d, wp m d (fun _ d' => still d d').
Lemma wp_quiet {A} (m : M A) d (P : A -> ds -> Prop) : quiet m ->
  (forall a d', left_ d' = left_ d /\ gTok d' = gTok d -> P a d') -> wp m d P.
Proof. intros Q H. eapply wp_mono; [apply Q|]. cbn. intros a d' S. apply H. apply still_left. exact S. Qed.
Lemma quiet_bind {A B} (m : M A) (k : A -> M B) : quiet m -> (forall a, quiet (k a)) -> quiet (bind m k).
Proof.
  intros Qm Qk d. apply wp_bind. eapply wp_mono; [apply Qm|]. cbn. intros a d1 (s1 & s2).
  eapply wp_mono; [apply Qk|]. cbn. intros b d2 (s3 & s4). split; congruence.
Qed.
Ltac q0 := intros d; unfold wp; cbn; unfold still; cbn; auto.
Lemma quiet_ret {A} (a : A) : quiet (ret a). Proof. q0. Qed.
Lemma quiet_ub {A} : quiet (@ub A). Proof. q0. Qed.
Lemma quiet_hang {A} : quiet (@hang A). Proof. q0. Qed.
Lemma quiet_nm {A} : quiet (@not_modelled A). Proof. q0. Qed.
Lemma quiet_token : quiet token. Proof. q0. Qed.
Lemma quiet_ptr : quiet tkn_ptr. Proof. q0. Qed.
Lemma quiet_str : quiet tkn_str. Proof. q0. Qed.
Lemma quiet_uint : quiet tkn_uint. Proof. q0. Qed.
Lemma quiet_vsize : quiet var_size. Proof. q0. Qed.
Lemma quiet_dstack : quiet dstack. Proof. q0. Qed.
Lemma quiet_nparms : quiet nparms. Proof. q0. Qed.
Lemma quiet_nsym : quiet nsym. Proof. q0. Qed.
Lemma quiet_set_vsize n : quiet (set_var_size n). Proof. q0. Qed.
Lemma quiet_set_dstack n : quiet (set_dstack n). Proof. q0. Qed.
Lemma quiet_set_nparms n : quiet (set_nparms n). Proof. q0. Qed.
Lemma quiet_error e : quiet (error e). Proof. q0. Qed.
Lemma quiet_add s : quiet (add_sym s). Proof. q0. Qed.
Lemma quiet_upd p f : quiet (upd p f). Proof. q0. Qed.
Lemma quiet_get_sym p : quiet (get_sym p).
Proof. intros d. unfold wp, get_sym. destruct (nth_error (syms d) p); [split; reflexivity|exact I]. Qed.
#[global] Hint Resolve quiet_ret quiet_ub quiet_hang quiet_nm quiet_token quiet_ptr quiet_str quiet_uint quiet_vsize quiet_dstack
  quiet_nparms quiet_nsym quiet_set_vsize quiet_set_dstack quiet_set_nparms quiet_error quiet_add quiet_upd quiet_get_sym : quiet.
Ltac quiet :=
  repeat first
    [ apply quiet_bind; [|intros] | progress eauto with quiet
    | match goal with
      | |- quiet (if ?b then _ else _) => destruct b
      | |- quiet (match ?b with _ => _ end) => destruct b
      end ].
Lemma quiet_add_type a b c q : quiet (add_type a b c q). Proof. unfold add_type. quiet. Qed.
Lemma quiet_add_const a b c q : quiet (add_const a b c q). Proof. unfold add_const. quiet. Qed.
Lemma quiet_add_variable a b c e q : quiet (add_variable a b c e q). Proof. unfold add_variable. quiet. Qed.
Lemma quiet_add_file a b c q : quiet (add_file a b c q). Proof. unfold add_file. quiet. Qed.
Lemma quiet_get_type p : quiet (get_type p). Proof. unfold get_type. quiet. Qed.
Lemma quiet_as_type p : quiet (as_type p). Proof. unfold as_type. quiet. Qed.
Lemma quiet_get_field p : quiet (get_field p). Proof. unfold get_field. quiet. Qed.
Lemma quiet_upd_type p f : quiet (upd_type p f). Proof. unfold upd_type. quiet. Qed.
Lemma quiet_upd_field p f : quiet (upd_field p f). Proof. unfold upd_field. quiet. Qed.
Lemma quiet_upd_var p k f : quiet (upd_var p k f). Proof. unfold upd_var. quiet. Qed.
#[global] Hint Resolve quiet_add_type quiet_add_const quiet_add_variable quiet_add_file quiet_get_type quiet_as_type quiet_get_field
  quiet_upd_type quiet_upd_field quiet_upd_var : quiet.
Lemma quiet_add_field a b c : quiet (add_field a b c). Proof. unfold add_field. quiet. Qed.
Lemma quiet_base_loop n : forall b, quiet (base_loop n b). Proof. induction n; intros b; cbn [base_loop]; quiet. Qed.
Lemma quiet_base_type p : quiet (base_type p).
Proof. unfold base_type. apply quiet_bind; [apply quiet_nsym|intros]. apply quiet_base_loop. Qed.
#[global] Hint Resolve quiet_add_field quiet_base_loop quiet_base_type : quiet.
Lemma quiet_align t : quiet (int_align_required t). Proof. unfold int_align_required. quiet. Qed.
#[global] Hint Resolve quiet_align : quiet.
Lemma quiet_value : quiet subrange_value. Proof. unfold subrange_value. quiet. Qed.
Lemma quiet_unit n : forall q u, quiet (unit_loop n q u). Proof. induction n; intros q u; cbn [unit_loop]; quiet. Qed.
Lemma quiet_place p o : quiet (place_field p o). Proof. unfold place_field. quiet. Qed.
#[global] Hint Resolve quiet_value quiet_unit quiet_place : quiet.
Lemma quiet_places n : forall q o, quiet (place_fields n q o). Proof. induction n; intros q o; cbn [place_fields]; quiet. Qed.
Lemma quiet_index a b c e f : quiet (add_index a b c e f). Proof. unfold add_index. quiet. Qed.
Lemma quiet_file q : quiet (file_of q). Proof. unfold file_of. quiet. Qed.
Lemma quiet_fref a b : quiet (add_forward_ref a b).
Proof. unfold add_forward_ref. destruct (a =? -1); quiet. Qed.
Lemma quiet_resolve l : quiet (resolve_loop l).
Proof.
  induction l as [|c l IH]; cbn [resolve_loop]; [q0|]. destruct (existsb _ _); [quiet|].
  apply quiet_bind; [|intros; exact IH]. intros d.
  unfold wp. destruct (find_any (fRef c) (fStart c) 0 (syms d) None) as [q|].
  - assert (Q : quiet (s <- get_sym q;; (if sKind s =? sTYPE then upd_type (fPtr c) (set_par (Some q)) else error eINVTYPE))) by quiet.
    apply Q.
  - apply quiet_error.
Qed.
Lemma quiet_offsets i : forall p o, quiet (parameter_offsets i p o). Proof. induction i; intros p o; cbn [parameter_offsets]; quiet. Qed.
Lemma quiet_allocate a p : quiet (allocate a p). Proof. unfold allocate. quiet. Qed.
#[global] Hint Resolve quiet_places quiet_index quiet_file quiet_fref quiet_resolve quiet_offsets quiet_allocate : quiet.

(** Anything else reads on: what is left does not grow. *)
Lemma nz_eq t c : (t =? c) = true -> (c =? 0) = false -> nz t = 1%nat.
Proof. intros E N. apply Z.eqb_eq in E. subst t. unfold nz. rewrite N. reflexivity. Qed.
Lemma nz_const t : is_constant t = true -> nz t = 1%nat.
Proof.
  intros E. unfold is_constant in E. unfold nz. destruct (t =? 0) eqn:Z; [|reflexivity].
  apply Z.eqb_eq in Z. subst t. discriminate E.
Qed.
Definition reads {A} (m : M A) : Prop := forall d, wp m d (fun _ d' => (left_ d' <= left_ d)%nat).
Lemma reads_quiet {A} (m : M A) : quiet m -> reads m.
Proof. intros Q d. apply wp_quiet; [exact Q|]. intros a d' (E & _). lia. Qed.
Lemma wp_reads {A} (m : M A) d (P : A -> ds -> Prop) : reads m -> (forall a d', (left_ d' <= left_ d)%nat -> P a d') -> wp m d P.
Proof. intros R H. eapply wp_mono; [apply R|exact H]. Qed.
Lemma reads_bind {A B} (m : M A) (k : A -> M B) : reads m -> (forall a, reads (k a)) -> reads (bind m k).
Proof.
  intros Qm Qk d. apply wp_bind. apply wp_reads; [exact Qm|]. intros a d1 L1.
  apply wp_reads; [apply Qk|]. intros b d2 L2. lia.
Qed.
Lemma reads_get : reads getToken. Proof. intros d. apply wp_get. intros d' L. lia. Qed.
Lemma reads_level : reads getLevelToken. Proof. intros d. apply wp_level. intros d' L. lia. Qed.
#[global] Hint Resolve reads_get reads_level : reads.
Ltac reads :=
  repeat first
    [ solve [apply reads_quiet; quiet] | progress eauto with reads
    | apply reads_bind; [|intros]
    | match goal with
      | |- reads (if ?b then _ else _) => destruct b
      | |- reads (match ?b with _ => _ end) => destruct b
      end ].
Lemma reads_expect t e : reads (expect t e). Proof. unfold expect. reads. Qed.
#[global] Hint Resolve reads_expect : reads.
Lemma reads_ident : reads type_identifier. Proof. unfold type_identifier. reads. Qed.
#[global] Hint Resolve reads_ident : reads.
Lemma reads_ordinal : reads ordinal_type_identifier. Proof. unfold ordinal_type_identifier. reads. Qed.
Lemma reads_signed : reads subrange_signed. Proof. unfold subrange_signed. reads. Qed.
Lemma reads_index : reads array_index_type. Proof. unfold array_index_type. reads. Qed.
#[global] Hint Resolve reads_ordinal reads_signed reads_index : reads.
Lemma reads_file : reads file_type_denoter. Proof. unfold file_type_denoter. reads. Qed.
#[global] Hint Resolve reads_file : reads.

(** Steps; the facts about [left_] are gathered for [lia]. *)
Ltac ws1 :=
  match goal with
  | |- wp (bind _ _) _ _ => apply wp_bind
  | |- wp getToken _ _ => apply wp_get; intros ? ?
  | |- wp getLevelToken _ _ => apply wp_level; intros ? ?
  | |- wp token _ _ => apply wp_token
  | |- wp (ret _) _ _ => apply wp_ret
  | |- wp ub _ _ => apply wp_ub
  | |- wp hang _ _ => apply wp_hang
  | |- wp not_modelled _ _ => apply wp_nm
  | |- wp (if ?b then _ else _) _ _ => destruct b eqn:?
  | |- wp (match ?b with _ => _ end) _ _ => destruct b eqn:?
  | |- wp ?m _ _ => apply wp_quiet; [solve [quiet]|intros ? ? [? ?]]
  | |- wp ?m _ _ => apply wp_reads; [solve [reads]|intros ? ? ?]
  end; cbv beta zeta.
Ltac nzs :=
  repeat match goal with
  | H : (?t =? ?c) = true |- _ =>
    let N := fresh "N" in assert (N : nz t = 1%nat) by (apply (nz_eq t c H); reflexivity); revert H
  | H : is_constant ?t = true |- _ => let N := fresh "N" in pose proof (nz_const t H) as N; revert H
  | H : negb ?b = false |- _ => apply negb_false_iff in H
  | H : gTok ?a = gTok ?b |- _ => let N := fresh "N" in pose proof (f_equal nz H) as N; revert H
  end; intros.
Ltac wl := nzs; try lia.

Notation "'fewer' d d'" := (left_ d' <= left_ d)%nat (at level 10, d at level 9, d' at level 9, only parsing).

Lemma enum_ends k : forall tp n d, (left_ d < k + nz (gTok d))%nat -> wp (enum_loop k tp n) d (fun _ d' => fewer d d').
Proof.
  induction k as [|k IH]; intros tp n d L.
  - exfalso. unfold left_ in L. lia.
  - cbn [enum_loop]. repeat ws1; wl.
    all: eapply wp_mono; [apply IH; wl|cbv beta; intros; wl].
Qed.

Lemma simple_ends k name d : (left_ d < k + nz (gTok d))%nat -> wp (new_simple_type k name) d (fun _ d' => fewer d d').
Proof.
  intros L. unfold new_simple_type. apply wp_bind, wp_token. cbv beta. destruct (gTok d =? tLPAREN) eqn:E.
  - apply wp_bind. ws1. apply wp_bind. eapply wp_mono; [apply enum_ends; wl|]. cbv beta. intros. repeat ws1; wl.
  - match goal with |- wp ?m d _ => assert (R : reads m) by reads; exact (R d) end.
Qed.
Lemma dsimple_ends k name d : (left_ d < k + nz (gTok d))%nat -> wp (declare_simple_type k name) d (fun _ d' => fewer d d').
Proof.
  intros L. unfold declare_simple_type. apply wp_bind. eapply wp_mono; [apply simple_ends; exact L|]. cbv beta. intros. repeat ws1; wl.
Qed.

Lemma indexes_end k : forall ap last d, (left_ d < k + nz (gTok d))%nat -> wp (index_list k ap last) d (fun _ d' => fewer d d').
Proof.
  induction k as [|k IH]; intros ap last d L.
  - exfalso. unfold left_ in L. lia.
  - cbn [index_list]. apply wp_bind. ws1. apply wp_bind. ws1. apply wp_bind.
    apply wp_reads; [reads|]. intros last' d2 L2. repeat ws1; [|wl].
    eapply wp_mono; [apply IH; wl|cbv beta; intros; wl].
Qed.

Lemma constants_end k : forall d, (left_ d < k + nz (gTok d))%nat -> wp (case_constants k) d (fun _ d' => fewer d d').
Proof.
  induction k as [|k IH]; intros d L.
  - exfalso. unfold left_ in L. lia.
  - cbn [case_constants]. apply wp_bind. ws1. apply wp_bind. ws1. apply wp_bind.
    apply wp_reads; [reads|]. intros [] d2 L2. repeat ws1; [|wl].
    eapply wp_mono; [apply IH; wl|cbv beta; intros; wl].
Qed.

Ltac tk c := match goal with |- context [gTok ?x =? c] => destruct (gTok x =? c) eqn:? end.

Section Denoter.
Variable td : M nat.
Variable N : nat.
Hypothesis TD : forall d, (left_ d < N)%nat -> wp td d (fun _ d' => fewer d d').

Lemma base_ends ap d : (left_ d < N)%nat -> wp (array_base_type td ap) d (fun _ d' => fewer d d').
Proof.
  intros L. unfold array_base_type. apply wp_bind. ws1. apply wp_bind. eapply wp_mono; [apply TD; wl|]. cbv beta. intros p d1 L1.
  repeat ws1; wl.
Qed.

Lemma field_ends k : forall rp last d, (left_ d < k)%nat -> (left_ d < N)%nat -> wp (declare_field td k rp last) d (fun _ d' => fewer d d').
Proof.
  induction k as [|k IH]; intros rp last d L LN; [lia|].
  cbn [declare_field]. apply wp_bind, wp_token. cbv beta. destruct (negb (gTok d =? tIDENT)) eqn:E; [repeat ws1; wl|].
  apply wp_bind. ws1. apply wp_bind. ws1. apply wp_bind. ws1. apply wp_bind, wp_token. cbv beta. apply wp_bind.
  tk tCOMMA.
  - apply wp_bind. ws1. apply wp_bind. eapply wp_mono; [apply IH; wl|]. cbv beta. intros np d4 L4.
    apply wp_reads; [reads|]. intros tp d5 L5. repeat ws1; wl.
  - apply wp_bind. ws1. apply wp_bind. eapply wp_mono; [apply TD; wl|]. cbv beta. intros p d4 L4. repeat ws1; wl.
Qed.

Lemma fixed_ends k : forall rp last d, (left_ d < k)%nat -> (left_ d < N)%nat -> wp (fixed_part td k rp last) d (fun _ d' => fewer d d').
Proof.
  induction k as [|k IH]; intros rp last d L LN; [lia|].
  cbn [fixed_part]. apply wp_bind, wp_token. cbv beta. destruct (gTok d =? tCASE) eqn:E; [repeat ws1; wl|].
  apply wp_bind. eapply wp_mono; [apply field_ends; wl|]. cbv beta. intros fp d1 L1. repeat ws1; wl.
  eapply wp_mono; [apply IH; wl|]. cbv beta. intros; wl.
Qed.

Lemma vfields_end k : forall rp last first d, (left_ d < k)%nat -> (left_ d < N)%nat -> wp (variant_fields td k rp last first) d (fun _ d' => fewer d d').
Proof.
  induction k as [|k IH]; intros rp last first d L LN; [lia|].
  cbn [variant_fields]. apply wp_bind. eapply wp_mono; [apply field_ends; wl|]. cbv beta. intros fp d1 L1. repeat ws1; wl.
  all: eapply wp_mono; [apply IH; wl|]; cbv beta; intros; wl.
Qed.

Lemma variants_end k : forall rp last start placed mx d, (left_ d < k)%nat -> (left_ d < N)%nat ->
  wp (variants td k rp last start placed mx) d (fun _ d' => fewer d d').
Proof.
  induction k as [|k IH]; intros rp last start placed mx d L LN; [lia|].
  cbn [variants]. apply wp_bind, wp_token. cbv beta. destruct (negb (is_constant (gTok d))) eqn:E; [repeat ws1; wl|].
  apply wp_bind. eapply wp_mono; [apply constants_end; wl|]. cbv beta. intros [] d1 L1.
  apply wp_bind. ws1. apply wp_bind. ws1. apply wp_bind, wp_token. cbv beta. apply wp_bind.
  match goal with |- wp _ ?x _ => rename x into dz end.
  assert (K : forall r d4, (left_ d4 <= left_ dz)%nat ->
    wp (let '(last', placed', mx') := r in
      expect tRPAREN eRPAREN;;
      y <- token;;
      (if y =? tSEMI then
        getToken;;
        z <- token;;
        (if z =? tEND then ret mx' else variants td k rp last' start placed' mx')
      else ret mx')) d4 (fun _ d' => (left_ d' <= left_ d)%nat)).
  { intros [[last' placed'] mx'] d4 L4. repeat ws1; wl. eapply wp_mono; [apply IH; wl|]. cbv beta. intros; wl. }
  tk tRPAREN.
  - ws1. apply (K (last, placed, mx)). lia.
  - apply wp_bind. eapply wp_mono; [apply vfields_end; wl|]. cbv beta. intros first d4 L4.
    apply wp_reads; [reads|]. intros r d5 L5. apply (K r). lia.
Qed.

Lemma record_ends k name d : (left_ d < k)%nat -> (left_ d < N)%nat -> wp (declare_record td k name) d (fun _ d' => fewer d d').
Proof.
  intros L LN. unfold declare_record. apply wp_bind. ws1. apply wp_bind.
  eapply wp_mono; [apply fixed_ends; wl|]. cbv beta. intros [] d2 L2.
  apply wp_bind. ws1. apply wp_bind. apply wp_quiet; [quiet|]. intros [[fp off] rem] dx (Ex & _). apply wp_bind. ws1. apply wp_bind, wp_token. cbv beta.
  apply wp_bind. tk tCASE.
  - apply wp_bind. ws1. apply wp_bind, wp_token. cbv beta. apply wp_bind.
    apply wp_reads; [reads|]. intros [fp' off'] d3 L3. apply wp_bind. ws1. apply wp_bind.
    eapply wp_mono; [apply variants_end; wl|]. cbv beta. intros mx d7 L7. repeat ws1; wl.
  - repeat ws1; wl.
Qed.

Lemma array_ends k name d : (left_ d < k)%nat -> (left_ d < N)%nat -> wp (array_type td k name) d (fun _ d' => fewer d d').
Proof.
  intros L LN. unfold array_type. apply wp_bind. ws1. apply wp_bind, wp_token. cbv beta. apply wp_bind.
  apply wp_quiet; [quiet|]. intros [] d1 (E1 & _). apply wp_bind. ws1. apply wp_bind.
  eapply wp_mono; [apply indexes_end; wl|]. cbv beta. intros [] d3 L3. apply wp_bind. ws1. apply wp_bind.
  eapply wp_mono; [apply base_ends; wl|]. cbv beta. intros [] d5 L5. repeat ws1; wl.
Qed.
End Denoter.

Lemma complex_ends td n k name d : (left_ d <= n)%nat -> (n < k)%nat ->
  (forall d, (left_ d < n)%nat -> wp td d (fun _ d' => fewer d d')) -> wp (new_complex_type td k name) d (fun _ d' => fewer d d').
Proof.
  intros L LK TD. unfold new_complex_type. apply wp_bind, wp_token. cbv beta.
  destruct (gTok d =? tCARET) eqn:E1.
  { match goal with |- wp ?m d _ => assert (R : reads m) by reads; exact (R d) end. }
  destruct (gTok d =? tPACKED) eqn:E2.
  { apply wp_bind. ws1. apply wp_bind, wp_token. cbv beta. tk tARRAY; [|repeat ws1; wl].
    eapply wp_mono; [eapply array_ends; [exact TD|wl|wl]|cbv beta; intros; wl]. }
  destruct (gTok d =? tARRAY) eqn:E3.
  { unfold array_type. apply wp_bind. ws1. apply wp_bind, wp_token. cbv beta. apply wp_bind.
    apply wp_quiet; [quiet|]. intros [] d1 (F1 & _). apply wp_bind. ws1. apply wp_bind.
    eapply wp_mono; [apply indexes_end; wl|]. cbv beta. intros [] d3 L3. apply wp_bind. ws1. apply wp_bind.
    eapply wp_mono; [eapply base_ends; [exact TD|wl]|]. cbv beta. intros [] d5 L5. repeat ws1; wl. }
  destruct (gTok d =? tRECORD) eqn:E4.
  { apply wp_bind. ws1. apply wp_bind. eapply wp_mono; [eapply record_ends; [exact TD|wl|wl]|]. cbv beta. intros p d2 L2. repeat ws1; wl. }
  destruct (gTok d =? tSET) eqn:E5.
  { apply wp_bind. ws1. apply wp_bind. ws1. apply wp_bind. ws1. apply wp_bind.
    match goal with |- wp (match ?q with Some _ => _ | None => _ end) ?x _ => rename x into dz;
      apply (wp_mono _ _ (fun _ d' => (left_ d' <= left_ dz)%nat)); [destruct q; [repeat ws1; wl|apply dsimple_ends; wl]|] end.
    cbv beta. intros q dy Ly. apply wp_reads; [reads|]. intros; wl. }
  destruct (gTok d =? tFILE) eqn:E6.
  { apply wp_bind. ws1. apply wp_bind. ws1. apply wp_bind. eapply wp_mono; [apply TD; wl|]. cbv beta. intros q d3 L3. repeat ws1; wl. }
  match goal with |- wp ?m d _ => assert (R : reads m) by reads; exact (R d) end.
Qed.

Lemma denoter_ends n : forall name d, (left_ d < n)%nat -> wp (type_denoter n name) d (fun _ d' => fewer d d').
Proof.
  induction n as [|n IH]; intros name d L; [lia|].
  cbn [type_denoter]. apply wp_bind. ws1. destruct a; [repeat ws1; wl|].
  apply wp_bind. eapply wp_mono; [apply (complex_ends _ n); [wl|wl|intros; apply IH; assumption]|]. cbv beta. intros q d2 L2.
  apply wp_bind. apply (wp_mono _ _ (fun _ d' => (left_ d' <= left_ d2)%nat)).
  - destruct q; [repeat ws1; wl|]. apply wp_bind. eapply wp_mono; [apply simple_ends; wl|]. cbv beta. intros r d3 L3. repeat ws1; wl.
  - cbv beta. intros r d3 L3. repeat ws1; wl.
Qed.

Lemma dtype_ends n name d : (left_ d < n)%nat -> wp (declare_type n name) d (fun _ d' => fewer d d').
Proof.
  intros L. unfold declare_type. destruct n as [|n]; [lia|].
  apply wp_bind. eapply wp_mono; [apply (complex_ends _ n); [wl|wl|intros; apply denoter_ends; wl]|]. cbv beta. intros p d1 L1.
  destruct p; [repeat ws1; wl|]. apply wp_bind. eapply wp_mono; [apply dsimple_ends; wl|]. cbv beta. intros q d2 L2. repeat ws1; wl.
Qed.

Lemma types_end k : forall n d, (left_ d < k)%nat -> (left_ d < n)%nat -> wp (type_loop k n) d (fun _ d' => fewer d d').
Proof.
  induction k as [|k IH]; intros n d L LN; [lia|].
  cbn [type_loop]. apply wp_bind, wp_token. cbv beta. tk tIDENT; [|repeat ws1; wl].
  apply wp_bind. ws1. apply wp_bind. ws1. apply wp_bind. ws1. apply wp_bind.
  eapply wp_mono; [apply dtype_ends; wl|]. cbv beta. intros [] d4 L4. repeat ws1; wl.
  eapply wp_mono; [apply IH; wl|]. cbv beta. intros; wl.
Qed.
Lemma type_group_ends n d : (left_ d < n)%nat -> wp (type_group n) d (fun _ d' => fewer d d').
Proof.
  intros L. unfold type_group. apply wp_bind. eapply wp_mono; [apply types_end; exact L|]. cbv beta. intros [] d1 L1.
  unfold resolve_forward. change (wp (resolve_loop (fwd d1)) d1 (fun _ d' => (left_ d' <= left_ d)%nat)). ws1. wl.
Qed.

Lemma var_ends k : forall n d, (left_ d < k)%nat -> (left_ d < n)%nat -> wp (declare_var k n) d (fun _ d' => fewer d d').
Proof.
  induction k as [|k IH]; intros n d L LN; [lia|].
  cbn [declare_var]. apply wp_bind. ws1. apply wp_bind. ws1. apply wp_bind, wp_token. cbv beta. apply wp_bind.
  match goal with |- wp _ ?x _ => rename x into dz; apply (wp_mono _ _ (fun _ d' => (left_ d' <= left_ dz)%nat)) end.
  - tk tCOMMA.
    + apply wp_bind. ws1. apply wp_bind, wp_token. cbv beta. tk tIDENT; [|repeat ws1; wl].
      eapply wp_mono; [apply IH; wl|]. cbv beta. intros; wl.
    + apply wp_bind. ws1. apply wp_bind. ws1. destruct a1; [repeat ws1; wl|].
      apply wp_bind. eapply wp_mono; [apply denoter_ends; wl|]. cbv beta. intros p d4 L4. repeat ws1; wl.
  - cbv beta. intros tp d4 L4. repeat ws1; wl.
Qed.
Lemma vars_end k : forall n d, (left_ d < k)%nat -> (left_ d < n)%nat -> wp (var_loop k n) d (fun _ d' => fewer d d').
Proof.
  induction k as [|k IH]; intros n d L LN; [lia|].
  cbn [var_loop]. apply wp_bind, wp_token. cbv beta. tk tIDENT; [|repeat ws1; wl].
  apply wp_bind. eapply wp_mono; [apply var_ends; wl|]. cbv beta. intros x d4 L4. repeat ws1; wl.
  eapply wp_mono; [apply IH; wl|]. cbv beta. intros; wl.
Qed.

Lemma parameter_ends k : forall b d, (left_ d < k)%nat -> wp (declare_parameter k b) d (fun _ d' => fewer d d').
Proof.
  induction k as [|k IH]; intros b d L; [lia|].
  cbn [declare_parameter]. apply wp_bind, wp_token. cbv beta. destruct (negb (gTok d =? tIDENT)) eqn:E; [repeat ws1; wl|].
  apply wp_bind. ws1. apply wp_bind. ws1. apply wp_bind. ws1. apply wp_bind, wp_token. cbv beta. apply wp_bind.
  match goal with |- wp _ ?x _ => rename x into dz; apply (wp_mono _ _ (fun _ d' => (left_ d' <= left_ dz)%nat)) end.
  - tk tCOMMA.
    + apply wp_bind. ws1. eapply wp_mono; [apply IH; wl|]. cbv beta. intros; wl.
    + apply wp_reads; [reads|]. intros; wl.
  - cbv beta. intros tp d4 L4. apply wp_reads; [reads|]. intros; wl.
Qed.
Lemma sections_end k : forall n d, (left_ d < k + nz (gTok d))%nat -> (left_ d <= n)%nat -> (k <= n)%nat ->
  wp (parameter_sections k n) d (fun _ d' => fewer d d').
Proof.
  induction k as [|k IH]; intros n d L LN KN.
  - exfalso. unfold left_ in L. lia.
  - cbn [parameter_sections]. apply wp_bind. ws1. apply wp_bind, wp_token. cbv beta. apply wp_bind. apply wp_reads; [reads|].
    intros b d2 L2. apply wp_bind. eapply wp_mono; [apply parameter_ends; wl|]. cbv beta. intros x d4 L4. repeat ws1; wl.
    eapply wp_mono; [apply IH; wl|]. cbv beta. intros; wl.
Qed.
Lemma formal_ends n pp d : (left_ d < n)%nat -> wp (formal_parameters n pp) d (fun _ d' => fewer d d').
Proof.
  intros L. unfold formal_parameters. apply wp_bind. ws1. apply wp_bind, wp_token. cbv beta. apply wp_bind.
  match goal with |- wp _ ?x _ => rename x into dz; apply (wp_mono _ _ (fun _ d' => (left_ d' <= left_ dz)%nat)) end.
  - tk tLPAREN; [|repeat ws1; wl]. apply wp_bind. eapply wp_mono; [apply sections_end; wl|]. cbv beta. intros [] d4 L4.
    apply wp_reads; [reads|]. intros; wl.
  - cbv beta. intros [] d4 L4. repeat ws1; wl.
Qed.
