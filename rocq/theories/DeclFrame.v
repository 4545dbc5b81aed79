(** What the declarations leave alone: the symbols that were there, the
    variables, g_dStack. *)

From Coq Require Import ZArith Bool List Lia Arith.
From Verif Require Import Words ExprModel DeclModel.
Import ListNotations.
Open Scope Z_scope.

(** ** The table only grows *)

Definition nsyms (d : ds) : nat := length (syms d).
Definition mono {A} (m : M A) : Prop := forall d a d', m d = Done a d' -> (nsyms d <= nsyms d')%nat.

Lemma mono_ret A (a : A) : mono (ret a).
Proof. intros d x d' E. inversion E; subst. lia. Qed.
Lemma mono_bind A B (m : M A) (k : A -> M B) : mono m -> (forall a, mono (k a)) -> mono (bind m k).
Proof.
  intros H K d b d' E. unfold bind in E. destruct (m d) as [a d1| | | |] eqn:E1; try discriminate.
  apply H in E1. apply K in E. lia.
Qed.
Lemma mono_ub A : mono (A:=A) ub. Proof. intros d a d' E. discriminate. Qed.
Lemma mono_hang A : mono (A:=A) hang. Proof. intros d a d' E. discriminate. Qed.
Lemma mono_nm A : mono (A:=A) not_modelled. Proof. intros d a d' E. discriminate. Qed.
Lemma mono_nf A : mono (A:=A) no_fuel. Proof. intros d a d' E. discriminate. Qed.
Lemma mono_quiet A (m : M A) : (forall d a d', m d = Done a d' -> syms d' = syms d) -> mono m.
Proof. intros H d a d' E. apply H in E. unfold nsyms. rewrite E. lia. Qed.
Lemma next_syms st d : syms (next_from st d) = syms d.
Proof.
  unfold next_from. destruct (rest d) as [|[c|v|v|n] r]; try reflexivity.
  destruct (find_sym _ _ _ _ _) as [p|]; [|reflexivity].
  destruct (nth_error _ _); reflexivity.
Qed.
Lemma next_stack st d : gStack (next_from st d) = gStack d.
Proof.
  unfold next_from. destruct (rest d) as [|[c|v|v|n] r]; try reflexivity.
  destruct (find_sym _ _ _ _ _) as [p|]; [|reflexivity].
  destruct (nth_error _ _); reflexivity.
Qed.
Ltac mq := apply mono_quiet; intros d a d' E; inversion E; subst; cbn; try reflexivity.
Lemma mono_token : mono token. Proof. mq. Qed.
Lemma mono_ptr : mono tkn_ptr. Proof. mq. Qed.
Lemma mono_str : mono tkn_str. Proof. mq. Qed.
Lemma mono_uint : mono tkn_uint. Proof. mq. Qed.
Lemma mono_vsize : mono var_size. Proof. mq. Qed.
Lemma mono_dstack : mono dstack. Proof. mq. Qed.
Lemma mono_nparms : mono nparms. Proof. mq. Qed.
Lemma mono_nsym : mono nsym. Proof. mq. Qed.
Lemma mono_setv n : mono (set_var_size n). Proof. mq. Qed.
Lemma mono_setd n : mono (set_dstack n). Proof. mq. Qed.
Lemma mono_setn n : mono (set_nparms n). Proof. mq. Qed.
Lemma mono_error e : mono (error e). Proof. mq. Qed.
Lemma mono_get : mono getToken. Proof. mq. apply next_syms. Qed.
Lemma mono_getl : mono getLevelToken. Proof. mq. apply next_syms. Qed.
Lemma mono_gsym p : mono (get_sym p).
Proof.
  apply mono_quiet. intros d a d' E. unfold get_sym in E.
  destruct (nth_error _ _); inversion E; subst; reflexivity.
Qed.
Lemma mono_add s : mono (add_sym s).
Proof. intros d a d' E. inversion E; subst. unfold nsyms. cbn. rewrite app_length. lia. Qed.
Lemma upd_length p (f : sym -> sym) l :
  length (firstn p l ++ match skipn p l with [] => [] | s :: r => f s :: r end) = length l.
Proof.
  assert (e3 : length (skipn p l) = (length l - p)%nat) by apply skipn_length.
  rewrite app_length, firstn_length. destruct (skipn p l); cbn [length] in *; lia.
Qed.
Lemma mono_upd p f : mono (upd p f).
Proof. intros d a d' E. inversion E; subst. unfold nsyms. cbn. rewrite upd_length. lia. Qed.

Create HintDb mono.
Ltac ms :=
  repeat first
  [ progress intros
  | match goal with
    | |- mono (bind _ _) => apply mono_bind
    | |- mono (ret _) => apply mono_ret
    | |- mono (if ?b then _ else _) => destruct b
    | |- mono (match ?x with Some _ => _ | None => _ end) => destruct x
    | |- mono (let '(_, _) := ?x in _) => destruct x
    | |- mono (match sParm ?s with PType _ => _ | _ => _ end) => destruct (sParm s)
    end
  | solve [eauto 4 with mono] ].
#[export] Hint Resolve mono_ub mono_hang mono_nm mono_nf mono_token mono_ptr mono_str mono_uint
  mono_vsize mono_dstack mono_nparms mono_nsym mono_setv mono_setd mono_setn mono_error mono_get
  mono_getl mono_gsym mono_add mono_upd mono_ret : mono.
Lemma mono_updt p f : mono (upd_type p f). Proof. apply mono_upd. Qed.
Lemma mono_updf p f : mono (upd_field p f). Proof. apply mono_upd. Qed.
Lemma mono_updv p k f : mono (upd_var p k f). Proof. apply mono_upd. Qed.
Lemma mono_gtype p : mono (get_type p). Proof. unfold get_type. ms. Qed.
Lemma mono_atype p : mono (as_type p). Proof. unfold as_type. ms. Qed.
Lemma mono_gfield p : mono (get_field p). Proof. unfold get_field. ms. Qed.
Lemma mono_expect t e : mono (expect t e). Proof. unfold expect. ms. Qed.
Lemma mono_addt a b c e : mono (add_type a b c e). Proof. apply mono_add. Qed.
Lemma mono_addc a b c e : mono (add_const a b c e). Proof. apply mono_add. Qed.
Lemma mono_addv a b c e f : mono (add_variable a b c e f). Proof. apply mono_add. Qed.
Lemma mono_addfile a b c e : mono (add_file a b c e). Proof. apply mono_add. Qed.
#[export] Hint Resolve mono_updt mono_updf mono_updv mono_gtype mono_atype mono_gfield mono_expect
  mono_addt mono_addc mono_addv mono_addfile : mono.
Lemma mono_addf n rp l : mono (add_field n rp l). Proof. unfold add_field. ms. Qed.
Lemma mono_base n : forall b, mono (base_loop n b).
Proof. induction n as [|n IH]; intros b; cbn [base_loop]; ms. Qed.
#[export] Hint Resolve mono_addf mono_base : mono.
Lemma mono_baset p : mono (base_type p). Proof. unfold base_type. ms. Qed.
#[export] Hint Resolve mono_baset : mono.
Lemma mono_align p : mono (int_align_required p).
Proof. destruct p; cbn [int_align_required]; ms. Qed.
Lemma mono_tid : mono type_identifier. Proof. unfold type_identifier. ms. Qed.
Lemma mono_sval : mono subrange_value. Proof. unfold subrange_value. ms. Qed.
#[export] Hint Resolve mono_align mono_tid mono_sval : mono.
Lemma mono_ssign : mono subrange_signed. Proof. unfold subrange_signed. ms. Qed.
Lemma mono_enum k tp : forall n, mono (enum_loop k tp n).
Proof. induction k as [|k IH]; intros n; cbn [enum_loop]; ms. Qed.
#[export] Hint Resolve mono_ssign mono_enum : mono.
Lemma mono_simple k n : mono (new_simple_type k n). Proof. unfold new_simple_type. ms. Qed.
Lemma mono_ford' name r n : mono (p <- add_type name sPOINTER sPTR_SIZE None;; (fun d => Done p (set_fwd (mkFref p name r n :: fwd d) d))).
Proof. ms. intros x0 y0 z0 E. inversion E; subst. unfold nsyms. cbn. lia. Qed.
Lemma mono_ford n r : mono (add_forward_ref n r).
Proof.
  unfold add_forward_ref. ms. intros x0 y0 z0 E. inversion E; subst. unfold nsyms. cbn. lia.
Qed.
Lemma mono_otid : mono ordinal_type_identifier. Proof. unfold ordinal_type_identifier. ms. Qed.
#[export] Hint Resolve mono_simple mono_ford mono_otid : mono.
Lemma mono_dsimple k n : mono (declare_simple_type k n). Proof. unfold declare_simple_type. ms. Qed.
Lemma mono_addi a b c e f : mono (add_index a b c e f). Proof. unfold add_index. ms. Qed.
#[export] Hint Resolve mono_dsimple mono_addi : mono.
Lemma mono_index : mono array_index_type. Proof. unfold array_index_type. cbv zeta. ms. Qed.
#[export] Hint Resolve mono_index : mono.
Lemma mono_ilist k ap : forall l, mono (index_list k ap l).
Proof. induction k as [|k IH]; intros l; cbn [index_list]; ms. Qed.
Lemma mono_unit n : forall ip u, mono (unit_loop n ip u).
Proof. induction n as [|n IH]; intros [p|] u; cbn [unit_loop]; cbv zeta; ms. Qed.
#[export] Hint Resolve mono_ilist mono_unit : mono.
Lemma mono_place p off : mono (place_field p off). Proof. unfold place_field. cbv zeta. ms. Qed.
#[export] Hint Resolve mono_place : mono.
Lemma mono_places n : forall fp off, mono (place_fields n fp off).
Proof. induction n as [|n IH]; intros [p|] off; cbn [place_fields]; ms. Qed.
Lemma mono_consts k : mono (case_constants k).
Proof. induction k as [|k IH]; cbn [case_constants]; ms. Qed.
#[export] Hint Resolve mono_places mono_consts : mono.

Section MonoTypes.
Variable td : M nat.
Hypothesis Htd : mono td.
Hint Resolve Htd : mono.
Lemma mono_abase ap : mono (array_base_type td ap). Proof using Htd. unfold array_base_type. ms. Qed.
Lemma mono_field k : forall rp l, mono (declare_field td k rp l).
Proof using Htd. induction k as [|k IH]; intros rp l; cbn [declare_field]; ms. Qed.
Hint Resolve mono_abase mono_field : mono.
Lemma mono_fixed k : forall rp l, mono (fixed_part td k rp l).
Proof using Htd. induction k as [|k IH]; intros rp l; cbn [fixed_part]; ms. Qed.
Lemma mono_vfields k : forall rp l f, mono (variant_fields td k rp l f).
Proof using Htd. induction k as [|k IH]; intros rp l f; cbn [variant_fields]; cbv zeta; ms. Qed.
Hint Resolve mono_fixed mono_vfields : mono.
Lemma mono_variants k : forall rp l a b c, mono (variants td k rp l a b c).
Proof using Htd. induction k as [|k IH]; intros rp l a b c; cbn [variants]; ms. Qed.
Hint Resolve mono_variants : mono.
Lemma mono_record k n : mono (declare_record td k n).
Proof using Htd. unfold declare_record. cbv zeta. ms. Qed.
Lemma mono_array k n : mono (array_type td k n). Proof using Htd. unfold array_type. ms. Qed.
Hint Resolve mono_record mono_array : mono.
Lemma mono_complex k n : mono (new_complex_type td k n).
Proof using Htd. unfold new_complex_type. ms. Qed.
End MonoTypes.
#[export] Hint Resolve mono_abase mono_field mono_fixed mono_vfields mono_variants mono_record
  mono_array mono_complex : mono.
Lemma mono_td n : forall name, mono (type_denoter n name).
Proof. induction n as [|n IH]; intros name; cbn [type_denoter]; ms. Qed.
#[export] Hint Resolve mono_td : mono.

(** ** The frame *)

Definition not_var (s : sym) : Prop := match sParm s with PVar _ => False | _ => True end.
(** Between [L] and [U] *)
Definition fresh (L U : nat) (p : nat) : Prop := (L <= p < U)%nat.
Definition fresh' (L U : nat) (p : option nat) : Prop :=
  match p with Some q => (L <= q < U)%nat | None => True end.
(** From [L] on *)
Definition from' (L : nat) (p : option nat) : Prop :=
  match p with Some q => (L <= q)%nat | None => True end.
(** A type has the kind of a type.  A field of a record begun at [L] or later leads on to such a field, and
    when [ix] is set a type to such an index type. *)
Definition leads (ix : bool) (L U : nat) (s : sym) : Prop :=
  match sParm s with
  | PField f => fresh' L U (rNext f)
  | PType t => sKind s = sTYPE /\ (ix = true -> fresh' L U (tIdx t))
  | _ => True
  end.

Record fr (ix : bool) (L U : nat) (l0 : list sym) (s0 : Z) (d : ds) : Prop := mkFr
  { fr_pre : firstn L (syms d) = l0;
    fr_len : (L <= nsyms d)%nat;
    fr_new : Forall (fun s => not_var s /\ leads ix L U s) (skipn L (syms d));
    fr_stk : gStack d = s0 }.

Definition frm {A} ix (L U : nat) (l0 : list sym) (s0 : Z) (m : M A) (Q : A -> Prop) : Prop :=
  forall d a d', m d = Done a d' -> fr ix L U l0 s0 d -> (nsyms d' <= U)%nat ->
                 fr ix L U l0 s0 d' /\ Q a.
Definition any {A} (a : A) : Prop := True.

Lemma skipn_app_le {A} (n : nat) (l m : list A) :
  (n <= length l)%nat -> skipn n (l ++ m) = skipn n l ++ m.
Proof.
  intros H. rewrite skipn_app. replace (n - length l)%nat with O by lia. reflexivity.
Qed.

Lemma split_upd L p (f : sym -> sym) (l : list sym) :
  let l' := firstn p l ++ match skipn p l with [] => [] | s :: r => f s :: r end in
  ((L <= p)%nat -> firstn L l' = firstn L l) /\
  (forall P : sym -> Prop, Forall P (skipn L l) -> (forall s, P s -> P (f s)) -> (L <= p)%nat ->
             Forall P (skipn L l')).
Proof.
  intros l'. subst l'.
  assert (Hl : forall r s, skipn p l = s :: r -> (p < length l)%nat).
  { intros r s E. destruct (Nat.lt_ge_cases p (length l)); [assumption|].
    rewrite skipn_all2 in E by assumption. discriminate. }
  assert (e : l = firstn p l ++ skipn p l) by (symmetry; apply firstn_skipn).
  split.
  - intros H. rewrite firstn_app, firstn_firstn, Nat.min_l by exact H.
    destruct (skipn p l) as [|s r] eqn:E.
    + rewrite firstn_nil, app_nil_r. reflexivity.
    + specialize (Hl _ _ eq_refl). rewrite firstn_length, Nat.min_l by lia.
      replace (L - p)%nat with O by lia. cbn. apply app_nil_r.
  - intros P FP PF H. destruct (skipn p l) as [|s r] eqn:E.
    + rewrite app_nil_r. rewrite firstn_all2; [exact FP|].
      destruct (Nat.lt_ge_cases p (length l)) as [h|h]; [|exact h].
      apply (f_equal (@length sym)) in E. rewrite skipn_length in E. cbn in E. lia.
    + specialize (Hl _ _ eq_refl). rewrite skipn_app, firstn_length, Nat.min_l by lia.
      replace (L - p)%nat with O by lia. cbn [skipn].
      assert (e2 : skipn L l = skipn L (firstn p l) ++ s :: r).
      { rewrite e at 1. rewrite skipn_app, firstn_length, Nat.min_l by lia.
        replace (L - p)%nat with O by lia. reflexivity. }
      rewrite e2 in FP. apply Forall_app in FP. destruct FP as [f1 f2].
      apply Forall_app. split; [exact f1|]. inversion f2; subst. constructor; auto.
Qed.

Section Frame.
Variables (ix : bool) (L U : nat) (l0 : list sym) (s0 : Z).
Notation fr := (fr ix L U l0 s0).
Notation frm := (frm ix L U l0 s0).
Notation fresh := (fresh L U).
Notation fresh' := (fresh' L U).
Notation leads := (leads ix L U).
Notation from' := (from' L).
Lemma fresh_from p : fresh' p -> from' p.
Proof using. destruct p; cbn; [lia|auto]. Qed.

Lemma frm_ret A (a : A) (Q : A -> Prop) : Q a -> frm (ret a) Q.
Proof using. intros H d x d' E F _. inversion E; subst. auto. Qed.
Lemma frm_bind A B (m : M A) (k : A -> M B) R (Q : B -> Prop) :
  (forall a, mono (k a)) -> frm m R -> (forall a, R a -> frm (k a) Q) -> frm (bind m k) Q.
Proof using.
  intros Hm H K d b d' E F HU. unfold bind in E. destruct (m d) as [a d1| | | |] eqn:E1; try discriminate.
  pose proof (Hm a d1 b d' E) as h. destruct (H d a d1 E1 F) as [F1 Ra]; [lia|].
  exact (K a Ra d1 b d' E F1 HU).
Qed.
Lemma frm_weak A (m : M A) (Q R : A -> Prop) : frm m Q -> (forall a, Q a -> R a) -> frm m R.
Proof using. intros H W d a d' E F HU. destruct (H d a d' E F HU). auto. Qed.
Lemma frm_ub A (Q : A -> Prop) : frm ub Q. Proof using. intros d a d' E. discriminate. Qed.
Lemma frm_hang A (Q : A -> Prop) : frm hang Q. Proof using. intros d a d' E. discriminate. Qed.
Lemma frm_nm A (Q : A -> Prop) : frm not_modelled Q. Proof using. intros d a d' E. discriminate. Qed.
Lemma frm_nf A (Q : A -> Prop) : frm no_fuel Q. Proof using. intros d a d' E. discriminate. Qed.

(** A step that touches neither the table nor g_dStack *)
Lemma frm_quiet A (m : M A) :
  (forall d a d', m d = Done a d' -> syms d' = syms d /\ gStack d' = gStack d) -> frm m any.
Proof using.
  intros H d a d' E F _. destruct (H d a d' E) as [e1 e2]. split; [|exact I].
  destruct F as [p1 p2 p3 p4]. unfold nsyms in p2. constructor; unfold nsyms; rewrite ?e1, ?e2; assumption.
Qed.
Ltac quiet := apply frm_quiet; intros d a d' E; inversion E; subst; cbn; auto.

Lemma frm_token : frm token any. Proof using. quiet. Qed.
Lemma frm_ptr : frm tkn_ptr any. Proof using. quiet. Qed.
Lemma frm_str : frm tkn_str any. Proof using. quiet. Qed.
Lemma frm_uint : frm tkn_uint any. Proof using. quiet. Qed.
Lemma frm_vsize : frm var_size any. Proof using. quiet. Qed.
Lemma frm_nsym : frm nsym any. Proof using. quiet. Qed.
Lemma frm_setv n : frm (set_var_size n) any. Proof using. quiet. Qed.
Lemma frm_error e : frm (error e) any. Proof using. quiet. Qed.
Lemma frm_get : frm getToken any.
Proof using. apply frm_quiet; intros d a d' E; inversion E; subst. split; [apply next_syms|apply next_stack]. Qed.
Lemma frm_getl : frm getLevelToken any.
Proof using. apply frm_quiet; intros d a d' E; inversion E; subst. split; [apply next_syms|apply next_stack]. Qed.
Lemma frm_gsym p : frm (get_sym p) any.
Proof using.
  apply frm_quiet; intros d a d' E. unfold get_sym in E.
  destruct (nth_error _ _); inversion E; subst; auto.
Qed.

Lemma frm_if A (b : bool) (m1 m2 : M A) Q : frm m1 Q -> frm m2 Q -> frm (if b then m1 else m2) Q.
Proof using. destruct b; auto. Qed.

Lemma frm_seq A B (m : M A) (k : A -> M B) (Q : B -> Prop) :
  (forall a, mono (k a)) -> frm m any -> (forall a, frm (k a) Q) -> frm (bind m k) Q.
Proof using. intros Hm H K. eapply frm_bind; [exact Hm|exact H|]. intros a _. apply K. Qed.

Lemma frm_add s : not_var s -> leads s -> frm (add_sym s) fresh.
Proof using.
  intros nv ld d a d' E F HU. unfold add_sym in E. inversion E; subst. clear E.
  destruct F as [p1 p2 p3 p4]. unfold nsyms in *. cbn in HU. rewrite app_length in HU. cbn in HU.
  split; [|unfold DeclFrame.fresh; lia].
  constructor; cbn [syms set_syms gStack]; auto.
  - rewrite firstn_app. replace (L - length (syms d))%nat with O by lia.
    cbn. rewrite app_nil_r. exact p1.
  - unfold nsyms. cbn. rewrite app_length. lia.
  - rewrite skipn_app_le by exact p2. apply Forall_app. split; auto.
Qed.

Lemma frm_upd p (f : sym -> sym) :
  (forall s, not_var s /\ leads s -> not_var (f s) /\ leads (f s)) -> (L <= p)%nat -> frm (upd p f) any.
Proof using.
  intros Hf Hp d a d' E F HU. unfold upd in E. inversion E; subst. clear E.
  destruct F as [p1 p2 p3 p4]. split; [|exact I].
  pose proof (split_upd L p f (syms d)) as S. cbv zeta in S. destruct S as [S2 S3].
  constructor; cbn [syms set_syms gStack]; auto.
  - rewrite S2 by exact Hp. exact p1.
  - unfold nsyms in *. cbn [syms set_syms]. rewrite upd_length. exact p2.
Qed.
Lemma frm_updt p f :
  (forall t, ix = true -> fresh' (tIdx t) -> fresh' (tIdx (f t))) -> (L <= p)%nat -> frm (upd_type p f) any.
Proof using.
  intros Hf H. apply frm_upd; [|exact H]. intros s [a b].
  unfold not_var, DeclFrame.leads in *. destruct (sParm s) eqn:E; cbn; rewrite ?E; auto.
  destruct b as [b1 b2]. auto.
Qed.
Lemma frm_updf p f :
  (forall x, fresh' (rNext x) -> fresh' (rNext (f x))) -> (L <= p)%nat -> frm (upd_field p f) any.
Proof using.
  intros Hf H. apply frm_upd; [|exact H]. intros s [a b].
  unfold not_var, DeclFrame.leads in *. destruct (sParm s) eqn:E; cbn; rewrite ?E; auto.
Qed.

Lemma frm_gtype0 p : frm (get_type p) any.
Proof using.
  unfold get_type. apply frm_seq; [ms|apply frm_gsym|]. intros s. destruct (sParm s); try apply frm_ub.
  apply frm_ret. exact I.
Qed.
Lemma frm_atype p : frm (as_type p) any.
Proof using.
  unfold as_type. apply frm_seq; [ms|apply frm_gsym|]. intros s.
  destruct (sParm s); try apply frm_nm; apply frm_ret; exact I.
Qed.
Lemma fr_in p s d : fr d -> (L <= p)%nat -> nth_error (syms d) p = Some s -> not_var s /\ leads s.
Proof using.
  intros [p1 p2 p3 p4] H N. rewrite Forall_forall in p3. apply p3.
  apply nth_error_In with (n := (p - L)%nat).
  rewrite <- (firstn_skipn L (syms d)) in N. unfold nsyms in p2.
  rewrite nth_error_app2 in N by (rewrite firstn_length; lia).
  rewrite firstn_length, Nat.min_l in N by exact p2. exact N.
Qed.
(** The field after a fresh one is fresh. *)
Lemma frm_gfield p : (L <= p)%nat -> frm (get_field p) (fun f => fresh' (rNext f)).
Proof using.
  intros H d a d' E F _. unfold get_field, bind, get_sym in E.
  destruct (nth_error (syms d) p) as [s|] eqn:N; [|discriminate].
  destruct (sParm s) as [| |f| |] eqn:Es; try discriminate. inversion E; subst. split; [exact F|].
  destruct (fr_in p s d' F H N) as [_ ld]. unfold DeclFrame.leads in ld. rewrite Es in ld. exact ld.
Qed.
Lemma frm_gtype p : fresh p -> frm (get_type p) (fun t => ix = true -> fresh' (tIdx t)).
Proof using.
  intros H d a d' E F _. unfold get_type, bind, get_sym in E.
  destruct (nth_error (syms d) p) as [s|] eqn:N; [|discriminate].
  destruct (sParm s) as [t| | | |] eqn:Es; try discriminate. inversion E; subst. split; [exact F|].
  destruct (fr_in p s d' F (proj1 H) N) as [_ ld]. unfold DeclFrame.leads in ld. rewrite Es in ld. exact (proj2 ld).
Qed.
Lemma frm_gfield0 p : frm (get_field p) any.
Proof using.
  unfold get_field. apply frm_seq; [ms|apply frm_gsym|]. intros s. destruct (sParm s); try apply frm_ub.
  apply frm_ret. exact I.
Qed.

Lemma frm_expect t e : frm (expect t e) any.
Proof using.
  unfold expect. apply frm_seq; [ms|apply frm_token|]. intros x. apply frm_if; [apply frm_get|apply frm_error].
Qed.
Lemma frm_addt n ty sz p : frm (add_type n ty sz p) fresh.
Proof using. apply frm_add; [exact I|]. split; [reflexivity|]. intros _. exact I. Qed.
Lemma frm_addc n ty sz p : frm (add_const n ty sz p) fresh.
Proof using. apply frm_add; exact I. Qed.
Lemma frm_addf n rp last : from' last -> frm (add_field n rp last) fresh.
Proof using.
  intros Hl. unfold add_field. eapply frm_bind; [ms|apply frm_add; exact I|].
  intros p Hp. destruct last as [q|]; [|apply frm_ret; exact Hp].
  eapply frm_bind; [ms|apply frm_updf; [|exact Hl]; intros x _; exact Hp|].
  intros _ _. apply frm_ret. exact Hp.
Qed.

Lemma frm_any A (m : M A) (Q : A -> Prop) : frm m Q -> frm m any.
Proof using. intros H. eapply frm_weak; [exact H|]. intros; exact I. Qed.

Lemma frm_base n b : frm (base_loop n b) any.
Proof using.
  revert b. induction n as [|n IH]; intros b; cbn [base_loop];
    (apply frm_seq; [ms|apply frm_atype|]; intros t; destruct (tPar t) as [q|];
     [apply frm_seq; [ms|apply frm_gsym|]; intros s; apply frm_if | apply frm_ret; exact I]).
  - apply frm_hang.
  - apply frm_ret; exact I.
  - apply IH.
  - apply frm_ret; exact I.
Qed.
Lemma frm_baset p : frm (base_type p) any.
Proof using. unfold base_type. apply frm_seq; [ms|apply frm_nsym|]. intros n. apply frm_base. Qed.
Lemma frm_align tp : frm (int_align_required tp) any.
Proof using.
  destruct tp as [p|]; cbn [int_align_required]; [|apply frm_ret; exact I].
  apply frm_seq; [ms|apply frm_atype|]. intros t. apply frm_if; [apply frm_ret; exact I|].
  apply frm_seq; [ms|apply frm_gsym|]. intros s. apply frm_if; [|apply frm_ret; exact I].
  apply frm_seq; [ms|apply frm_baset|]. intros b. apply frm_seq; [ms|apply frm_atype|].
  intros t'. apply frm_ret; exact I.
Qed.

(** Most steps go by looking at the head. *)
Ltac fs :=
  match goal with
  | |- frm (ret _) _ => apply frm_ret; try exact I; try assumption
  | |- frm (if _ then _ else _) _ => apply frm_if
  | |- frm ub _ => apply frm_ub
  | |- frm hang _ => apply frm_hang
  | |- frm not_modelled _ => apply frm_nm
  | |- frm no_fuel _ => apply frm_nf
  | |- frm (bind (add_type _ _ _ _) _) _ => eapply frm_bind; [solve [ms]|apply frm_addt|]; intros ?p ?Hp
  | |- frm (bind (add_const _ _ _ _) _) _ => eapply frm_bind; [solve [ms]|apply frm_addc|]; intros ?p ?Hp
  | |- frm (bind _ _) _ => apply frm_seq; [solve [ms]| |intros ?x]
  | |- frm (match ?x with Some _ => _ | None => _ end) _ => destruct x
  | |- frm (match ?x with None => _ | Some _ => _ end) _ => destruct x
  | |- frm token any => apply frm_token
  | |- frm tkn_ptr any => apply frm_ptr
  | |- frm tkn_str any => apply frm_str
  | |- frm tkn_uint any => apply frm_uint
  | |- frm var_size any => apply frm_vsize
  | |- frm nsym any => apply frm_nsym
  | |- frm (set_var_size _) any => apply frm_setv
  | |- frm (error _) any => apply frm_error
  | |- frm getToken any => apply frm_get
  | |- frm getLevelToken any => apply frm_getl
  | |- frm (get_sym _) any => apply frm_gsym
  | |- frm (get_type _) any => apply frm_gtype0
  | |- frm (as_type _) any => apply frm_atype
  | |- frm (get_field _) any => apply frm_gfield0
  | |- frm (expect _ _) any => apply frm_expect
  | |- frm (base_type _) any => apply frm_baset
  | |- frm (int_align_required _) any => apply frm_align
  | |- frm (upd_type _ _) any => apply frm_updt; [intros ?t ?H0 ?H1; exact H1|unfold DeclFrame.fresh, DeclFrame.fresh', DeclFrame.from' in *; lia]
  end.
Ltac fss := repeat fs.

Lemma frm_tid : frm type_identifier any.
Proof using. unfold type_identifier. fss. Qed.
Lemma frm_sval : frm subrange_value any.
Proof using. unfold subrange_value. fss. Qed.
Lemma frm_ssign : frm subrange_signed any.
Proof using. unfold subrange_signed. fss; try apply frm_sval. Qed.
Lemma frm_enum k tp : forall n, frm (enum_loop k tp n) any.
Proof using. induction k as [|k IH]; intros n; cbn [enum_loop]; fss. apply IH. Qed.
Lemma frm_simple k name : frm (new_simple_type k name) fresh'.
Proof using.
  unfold new_simple_type. fss; try apply frm_enum; try apply frm_ssign.
Qed.
Lemma frm_ford name r : frm (add_forward_ref name r) fresh.
Proof using.
  unfold add_forward_ref. apply frm_if; [fss|]. apply frm_seq; [| |intros n].
  - intros n. apply (mono_ford' name r n).
  - fss.
  - eapply frm_bind; [|apply frm_addt|].
    + intros p d a d' E. inversion E; subst. unfold nsyms; cbn; lia.
    + intros p Hp d a d' E F _. inversion E; subst. split; [|assumption].
      destruct F. constructor; assumption.
Qed.
Lemma frm_otid : frm ordinal_type_identifier any.
Proof using.
  unfold ordinal_type_identifier. apply frm_seq; [ms|apply frm_tid|]. intros p. fss.
Qed.
Lemma frm_dsimple k name : ix = false -> frm (declare_simple_type k name) fresh'.
Proof using.
  intros e. unfold declare_simple_type. eapply frm_bind; [ms|apply frm_simple|]. intros p Hp.
  destruct p as [p|]; [apply frm_ret; exact Hp|].
  apply frm_seq; [ms|apply frm_tid|]. intros q. fss.
  apply frm_updt; [|unfold DeclFrame.fresh in *; lia]. intros t H _. rewrite e in H. discriminate.
Qed.
Lemma frm_addi a b c e f : frm (add_index a b c e f) fresh'.
Proof using. unfold add_index. fss. Qed.
Lemma frm_index : frm array_index_type fresh'.
Proof using. unfold array_index_type. cbv zeta. fss; try apply frm_addi. Qed.
Lemma frm_ilist k ap : forall last, fresh ap -> fresh' last -> frm (index_list k ap last) any.
Proof using.
  induction k as [|k IH]; intros last Ha Hl; cbn [index_list]; [fss|].
  apply frm_seq; [ms|apply frm_get|]. intros _.
  eapply frm_bind; [ms|apply frm_index|]. intros ip Hip.
  eapply (frm_bind _ _ _ _ fresh'); [ms| |].
  - destruct ip as [ip|]; [|apply frm_ret; exact Hl]. cbn in Hip.
    apply frm_seq; [ms|apply frm_updt; [intros t _ h; exact h|apply Ha]|]. intros _.
    apply frm_seq; [ms|apply frm_gtype0|]. intros a.
    apply frm_seq; [ms|apply frm_updt; [intros t _ h; exact h|apply Hip]|]. intros _.
    apply frm_seq; [ms|destruct last as [l|]; (apply frm_updt; [intros t _ _; exact Hip|first [apply Hl|apply Ha]])|].
    intros _. apply frm_ret. exact Hip.
  - intros last' Hl'. apply frm_seq; [ms|apply frm_token|]. intros x.
    apply frm_if; [apply IH; assumption|fss].
Qed.
(** Following the index types stays among the fresh ones. *)
Lemma frm_unit n : ix = true -> forall ip u, fresh' ip -> frm (unit_loop n ip u) any.
Proof using.
  intros e. induction n as [|n IH]; intros [p|] u H; cbn [unit_loop]; try solve [fss].
  cbn in H. apply frm_seq; [ms|fss|]. intros _.
  eapply frm_bind; [ms|apply frm_gtype; exact H|]. intros t Ht. cbv zeta. fss. apply IH. auto.
Qed.

End Frame.
