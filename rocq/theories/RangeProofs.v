(** Enumerated types and subranges: what is accepted. *)

From Coq Require Import ZArith Bool List Lia ZifyBool.
From Verif Require Import Words ExprModel DeclModel DeclTypes DeclSpec DeclRun DeclRead RangeSpec.
Import ListNotations.
Open Scope Z_scope.

(** ** The next token as a function of the words *)

Definition looked (l : list raw) (m : list sym) : option (nat * sym) :=
  match l with
  | RId n :: _ =>
    match find_sym n 0 0 m None with
    | None => None
    | Some p => match nth_error m p with Some s => Some (p, s) | None => None end
    end
  | _ => None
  end.
Definition tok (l : list raw) (m : list sym) : Z :=
  match l with
  | [] => 0
  | RK c :: _ => c
  | RInt _ :: _ => tINT_CONST
  | RChr _ :: _ => tCHAR_CONST
  | RId _ :: _ => match looked l m with Some (_, s) => sKind s | None => tIDENT end
  end.
Definition ptr (l : list raw) (m : list sym) : option nat :=
  match looked l m with Some (p, _) => Some p | None => None end.
Definition str (l : list raw) : Z := match l with RId n :: _ => n | _ => 0 end.
Definition val (l : list raw) (m : list sym) (u : Z) : Z :=
  match l with
  | RInt v :: _ | RChr v :: _ => v
  | RId _ :: _ => match looked l m with Some (_, mkS _ _ (PConst v _)) => u32 v | _ => u end
  | _ => u
  end.

Lemma next_eq d : next_from 0 d =
  mkD (tok (rest d) (syms d)) (ptr (rest d) (syms d)) (str (rest d)) (val (rest d) (syms d) (gUInt d))
    (tl (rest d)) (syms d) (gLevel d) (gStack d) (gVarSize d) (gParms d) (fwd d) (derrs d).
Proof.
  unfold next_from, tok, ptr, str, val, looked. destruct (rest d) as [|[c|z|z|z] l]; try reflexivity.
  destruct (find_sym z 0 0 (syms d) None) as [p|]; [|reflexivity].
  destruct (nth_error (syms d) p) as [[a b c]|]; [|reflexivity]. destruct c; reflexivity.
Qed.

Lemma find_some n : forall l k acc p, find_sym n 0 k l acc = Some p ->
  (acc = Some p /\ forall j s, nth_error l j = Some s -> sName s = n -> sKind s = 0x59) \/
  (exists i s, p = (k + i)%nat /\ latest l n i s).
Proof.
  induction l as [|s l IH]; intros k acc p H; cbn [find_sym] in H.
  - left. split; [exact H|]. intros j s N. destruct j; discriminate.
  - apply IH in H. destruct H as [(H & F)|(i & s' & -> & (N & Ns & Nk & La))].
    + cbn [Nat.leb andb] in H. unfold sRECORD_OBJECT in H.
      destruct ((sName s =? n) && negb (sKind s =? 0x59)) eqn:E.
      * right. exists 0%nat, s. inversion H. split; [lia|]. split; [reflexivity|]. split; [lia|]. split; [lia|].
        intros j s' Hj Nj. destruct j as [|j]; [lia|]. exact (F j s' Nj).
      * left. split; [exact H|]. intros j s' Nj Ns. destruct j as [|j]; [cbn in Nj; inversion Nj; subst s'; lia|].
        exact (F j s' Nj Ns).
    + right. exists (S i), s'. split; [lia|]. split; [exact N|]. split; [exact Ns|]. split; [exact Nk|].
      intros j s2 Hj Nj. destruct j as [|j]; [lia|]. exact (La j s2 ltac:(lia) Nj).
Qed.
Lemma find_free n : forall l k, find_sym n 0 k l None = None -> unused l n.
Proof.
  assert (H : forall l k acc, find_sym n 0 k l acc = None -> acc = None /\ unused l n).
  { induction l as [|s l IH]; intros k acc H; cbn [find_sym] in H.
    - split; [exact H|]. intros j s N. destruct j; discriminate.
    - apply IH in H. destruct H as (H & F). cbn [Nat.leb andb] in H. unfold sRECORD_OBJECT in H.
      destruct ((sName s =? n) && negb (sKind s =? 0x59)) eqn:E; [discriminate|]. split; [exact H|].
      intros j s' Nj Ns. destruct j as [|j]; [cbn in Nj; inversion Nj; subst s'; lia|]. exact (F j s' Nj Ns). }
  intros l k F. apply (H l k None F).
Qed.

Lemma looked_some l m p s : looked l m = Some (p, s) -> exists n r, l = RId n :: r /\ latest m n p s.
Proof.
  unfold looked. destruct l as [|[c|z|z|z] l]; try discriminate.
  destruct (find_sym z 0 0 m None) as [q|] eqn:F; [|discriminate].
  destruct (nth_error m q) as [s'|] eqn:N; [|discriminate]. intros H. inversion H; subst q s'.
  exists z, l. split; [reflexivity|]. apply find_some in F. destruct F as [(F & _)|(i & s' & -> & La)]; [discriminate|].
  cbn [Nat.add] in *. destruct La as (N' & h). rewrite N in N'. inversion N'; subst s'. split; [exact N|exact h].
Qed.
Lemma looked_latest n r m p s : latest m n p s -> looked (RId n :: r) m = Some (p, s).
Proof.
  intros La. unfold looked. rewrite (find_latest n m 0 None p s La). cbn [Nat.add]. destruct La as (N & _). rewrite N. reflexivity.
Qed.
Lemma looked_none n r m : looked (RId n :: r) m = None -> unused m n.
Proof.
  unfold looked. destruct (find_sym n 0 0 m None) as [q|] eqn:F; [|intros _; eapply find_free; exact F].
  apply find_some in F. destruct F as [(F & _)|(i & s' & -> & (N & _))]; [discriminate|].
  cbn [Nat.add]. rewrite N. discriminate.
Qed.
Lemma looked_unused n r m : unused m n -> looked (RId n :: r) m = None.
Proof. intros U. unfold looked. rewrite find_none by exact U. reflexivity. Qed.

(** ** Tokens that say what the word is *)

Section Tok.

Variables (l : list raw) (m : list sym).
Hypothesis FW : Forall fit_word l.
Hypothesis FS : Forall fit_sym m.

Lemma fit_latest n p s : latest m n p s -> fit_sym s.
Proof using FS. intros (N & _). rewrite Forall_forall in FS. apply FS. eapply nth_error_In; exact N. Qed.

Lemma tok_const k u : tok l m = k -> In k [0x02; 0x03; 0x54] ->
  exists w v, l = w :: tl l /\ constant m w k v /\ val l m u = v /\ 0 <= v < 2147483648 /\ (k = 0x02 -> v <= 32767) /\
    (k = 0x54 -> exists n p s q, w = RId n /\ latest m n p s /\ ptr l m = Some p /\ sKind s = 0x54 /\ sParm s = PConst v q).
Proof using FW FS.
  intros E I. destruct l as [|w r]; [cbn in E; subst k; cbn in I; lia|]. pose proof (Forall_inv FW) as W.
  exists w, (val (w :: r) m u). split; [reflexivity|]. destruct w as [c|z|z|z].
  - exfalso. cbn in E, W, I. lia.
  - cbn in *. unfold tINT_CONST in E. subst. split; [constructor|]. split; [reflexivity|]. split; [lia|]. split; [lia|discriminate].
  - cbn in *. unfold tCHAR_CONST in E. subst. split; [constructor|]. split; [reflexivity|]. split; [lia|]. split; [lia|discriminate].
  - unfold tok in *. destruct (looked (RId z :: r) m) as [(p & s)|] eqn:L.
    + destruct (looked_some _ _ _ _ L) as (n & r' & e & La). inversion e; subst n r'.
      pose proof (fit_latest _ _ _ La) as (F1 & F2). destruct s as [sn sk sp]. cbn [sKind sParm] in *.
      destruct sp as [t|v q|f|v|]; try (exfalso; cbn in I, F2; lia).
      assert (V : val (RId z :: r) m u = v).
      { unfold val. rewrite L. unfold u32. rewrite Z.mod_small; lia. }
      rewrite V. split; [eapply c_name; [exact La|exact E|reflexivity]|]. split; [reflexivity|]. split; [lia|]. split; [intros ->; apply F2; exact E|].
      intros K. exists z, p, (mkS sn sk (PConst v q)), q. split; [reflexivity|]. split; [exact La|].
      split; [unfold ptr; rewrite L; reflexivity|]. split; [cbn; congruence|reflexivity].
    + exfalso. unfold tIDENT in *. cbn in I. lia.
Qed.

Lemma tok_special c : tok l m = c -> In c [0x0b; 0x28; 0x29; 0x2b; 0x2c; 0x2d] -> l = RK c :: tl l.
Proof using FW FS.
  intros E I. destruct l as [|w r]; [cbn in E; subst c; cbn in I; lia|]. pose proof (Forall_inv FW) as W.
  destruct w as [c0|z|z|z].
  - cbn in E. subst c0. reflexivity.
  - exfalso. cbn in I, E. unfold tINT_CONST in E. lia.
  - exfalso. cbn in I, E. unfold tCHAR_CONST in E. lia.
  - exfalso. unfold tok in E. destruct (looked (RId z :: r) m) as [(p & s)|] eqn:L.
    + destruct (looked_some _ _ _ _ L) as (n & r' & e & La). pose proof (fit_latest _ _ _ La) as (F1 & _). cbn in I, F1. lia.
    + unfold tIDENT in E. cbn in I. lia.
Qed.

Lemma tok_name : tok l m = 0x01 -> exists n, l = RId n :: tl l /\ unused m n /\ str l = n /\ 0 < n.
Proof using FW FS.
  intros E. destruct l as [|w r]; [discriminate|]. pose proof (Forall_inv FW) as W.
  destruct w as [c|z|z|z]; try discriminate.
  - exfalso. cbn in E, W. lia.
  - unfold tok in E. destruct (looked (RId z :: r) m) as [(p & s)|] eqn:L.
    + destruct (looked_some _ _ _ _ L) as (n & r' & e & La). pose proof (fit_latest _ _ _ La) as (F1 & _). cbn in F1. lia.
    + exists z. split; [reflexivity|]. split; [eapply looked_none; exact L|]. split; [reflexivity|exact W].
Qed.

End Tok.

(** ** Errors are only added *)

Definition mono {A} (m : M A) : Prop := forall d a d', m d = Done a d' -> exists e, derrs d' = derrs d ++ e.

Lemma mono_same {A} (m : M A) : (forall d a d', m d = Done a d' -> derrs d' = derrs d) -> mono m.
Proof. intros H d a d' E. exists []. rewrite app_nil_r. eapply H; exact E. Qed.
Lemma mono_bind {A B} (m : M A) (k : A -> M B) : mono m -> (forall a, mono (k a)) -> mono (bind m k).
Proof.
  intros Hm Hk d b d' E. unfold bind in E. destruct (m d) as [a d1| | | |] eqn:E1; try discriminate.
  destruct (Hm _ _ _ E1) as (e1 & h1). destruct (Hk a _ _ _ E) as (e2 & h2). exists (e1 ++ e2).
  rewrite h2, h1, app_assoc. reflexivity.
Qed.
Lemma mono_ret {A} (a : A) : mono (ret a). Proof. apply mono_same. intros d b d' E. inversion E. reflexivity. Qed.
Lemma mono_ub {A} : mono (@ub A). Proof. intros d b d' E. discriminate. Qed.
Lemma mono_nofuel {A} : mono (@no_fuel A). Proof. intros d b d' E. discriminate. Qed.
Lemma mono_token : mono token. Proof. apply mono_same. intros d b d' E. inversion E. reflexivity. Qed.
Lemma mono_uint : mono tkn_uint. Proof. apply mono_same. intros d b d' E. inversion E. reflexivity. Qed.
Lemma mono_ptr : mono tkn_ptr. Proof. apply mono_same. intros d b d' E. inversion E. reflexivity. Qed.
Lemma mono_str : mono tkn_str. Proof. apply mono_same. intros d b d' E. inversion E. reflexivity. Qed.
Lemma mono_get : mono getToken.
Proof. apply mono_same. intros d b d' E. unfold getToken in E. rewrite next_eq in E. inversion E. reflexivity. Qed.
Lemma mono_error e : mono (error e). Proof. intros d b d' E. inversion E. exists [e]. reflexivity. Qed.
Lemma mono_add s : mono (add_sym s). Proof. apply mono_same. intros d b d' E. inversion E. reflexivity. Qed.
Lemma mono_upd p f : mono (upd p f). Proof. apply mono_same. intros d b d' E. inversion E. reflexivity. Qed.
#[global] Hint Resolve mono_ret mono_ub mono_nofuel mono_token mono_uint mono_ptr mono_str mono_get mono_error mono_add mono_upd : mono.
Ltac mono :=
  repeat first
    [ apply mono_bind; [|intros] | progress eauto with mono
    | match goal with
      | |- mono (if ?b then _ else _) => destruct b
      | |- mono (match ?b with Some _ => _ | None => _ end) => destruct b
      end ].

Lemma mono_expect t e : mono (expect t e). Proof. unfold expect. mono. Qed.
Lemma mono_add_type a b c q : mono (add_type a b c q). Proof. unfold add_type. mono. Qed.
Lemma mono_add_const a b c q : mono (add_const a b c q). Proof. unfold add_const. mono. Qed.
Lemma mono_upd_type p f : mono (upd_type p f). Proof. unfold upd_type. mono. Qed.
#[global] Hint Resolve mono_expect mono_add_type mono_add_const mono_upd_type : mono.
Lemma mono_value : mono subrange_value. Proof. unfold subrange_value. mono. Qed.
#[global] Hint Resolve mono_value : mono.
Lemma mono_signed : mono subrange_signed. Proof. unfold subrange_signed. mono. Qed.
#[global] Hint Resolve mono_signed : mono.
Lemma mono_enum k : forall p n, mono (enum_loop k p n).
Proof. induction k as [|k IH]; intros p n; cbn [enum_loop]; mono. Qed.
#[global] Hint Resolve mono_enum : mono.

(** One step of a run without errors *)
Lemma clean {A B} (m : M A) (k : A -> M B) d b d' : bind m k d = Done b d' -> derrs d' = derrs d ->
  mono m -> (forall a, mono (k a)) ->
  exists a d1, m d = Done a d1 /\ derrs d1 = derrs d /\ k a d1 = Done b d' /\ derrs d' = derrs d1.
Proof.
  intros E H Hm Hk. unfold bind in E. destruct (m d) as [a d1| | | |] eqn:E1; try discriminate.
  destruct (Hm _ _ _ E1) as (e1 & h1). destruct (Hk a _ _ _ E) as (e2 & h2).
  assert (e1 = []) as ->.
  { rewrite h2, h1, <- app_assoc in H. rewrite <- (app_nil_r (derrs d)) in H at 2. apply app_inv_head in H.
    apply app_eq_nil in H. apply H. }
  rewrite app_nil_r in h1. exists a, d1. split; [reflexivity|]. split; [exact h1|]. split; [exact E|congruence].
Qed.
Lemma no_error e d d' : error e d = Done tt d' -> derrs d' = derrs d -> False.
Proof.
  intros E H. inversion E; subst d'. cbn in H. apply (f_equal (@length Z)) in H. rewrite app_length in H. cbn in H. lia.
Qed.

(** ** States *)

(** The current token is the first word of [l]. *)
Definition cur (l : list raw) (d : ds) : Prop :=
  gTok d = tok l (syms d) /\ gPtr d = ptr l (syms d) /\ gStr d = str l /\
  (exists u, gUInt d = val l (syms d) u) /\ rest d = tl l.
(** Only the words read and the table have changed. *)
Definition same (d d' : ds) : Prop :=
  gLevel d' = gLevel d /\ gStack d' = gStack d /\ gVarSize d' = gVarSize d /\ gParms d' = gParms d /\ fwd d' = fwd d.
Lemma same_refl d : same d d. Proof. unfold same. auto. Qed.
Lemma same_trans d1 d2 d3 : same d1 d2 -> same d2 d3 -> same d1 d3.
Proof. unfold same. intuition congruence. Qed.

Lemma get_cur d d' : getToken d = Done tt d' -> cur (rest d) d' /\ same d d' /\ syms d' = syms d /\ derrs d' = derrs d /\ d' = next_from 0 d.
Proof.
  unfold getToken. intros E. inversion E; subst d'. rewrite next_eq. unfold cur, same. cbn. eauto 20.
Qed.
