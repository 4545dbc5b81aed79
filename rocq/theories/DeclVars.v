(** The storage of variables. *)

From Coq Require Import ZArith Bool List Lia Arith.
From Verif Require Import Words ExprModel DeclModel DeclFrame DeclTypes DeclSpec.
Import ListNotations.
Open Scope Z_scope.

Fixpoint laid (a : Z) (l : list sym) (b : Z) : Prop :=
  match l with
  | [] => a = b
  | s :: r => a <= start s /\ 0 <= extent s /\ laid (start s + extent s) r b
  end.

Lemma laid_le l : forall a b, laid a l b -> a <= b.
Proof.
  induction l as [|s r IH]; intros a b H; cbn in H; [lia|].
  destruct H as (h1 & h2 & h3). apply IH in h3. lia.
Qed.
Lemma laid_app l : forall m a b c, laid a l b -> laid b m c -> laid a (l ++ m) c.
Proof.
  induction l as [|s r IH]; intros m a b c H K; cbn in *; [congruence|].
  destruct H as (h1 & h2 & h3). split; [exact h1|]. split; [exact h2|]. eapply IH; eauto.
Qed.
Lemma laid_weak l : forall a a' b, laid a l b -> a' <= a -> l <> [] \/ a' = a -> laid a' l b.
Proof. intros a a' b H K N. destruct l as [|s r]; cbn in *; [destruct N; congruence|]. intuition lia. Qed.
Lemma laid_within l : forall a b, laid a l b -> Forall (within a b) l.
Proof.
  induction l as [|s r IH]; intros a b H; [constructor|]. cbn in H. destruct H as (h1 & h2 & h3).
  pose proof (laid_le _ _ _ h3) as h4. constructor.
  - unfold within. lia.
  - apply IH in h3. eapply Forall_impl; [|exact h3]. unfold within. intros s' h. lia.
Qed.
Lemma laid_apart l : forall a b, laid a l b -> all_apart l.
Proof.
  induction l as [|s r IH]; intros a b H; [constructor|]. cbn in H. destruct H as (h1 & h2 & h3).
  constructor; [|eapply IH; exact h3].
  apply laid_within in h3. rewrite Forall_forall in h3. intros s' I b' [h4 h5].
  apply h3 in I. unfold within in I. lia.
Qed.

Lemma variables_app l m : variables (l ++ m) = variables l ++ variables m.
Proof. apply filter_app. Qed.

(** One step after another *)
Record step (d d' : ds) : Prop := mkStep
  { st_new : exists m, syms d' = syms d ++ m;
    st_mark : types_marked (syms d) -> types_marked (syms d');
    st_le : types_fit (syms d') -> gStack d <= gStack d';
    st_laid : forall m, syms d' = syms d ++ m -> types_marked (syms d) -> types_fit (syms d') ->
      0 <= gStack d -> gStack d' < 65536 ->
      laid (gStack d) (variables m) (gStack d') /\ Forall (as_declared (syms d')) (variables m) }.

Lemma as_declared_more l m s : as_declared l s -> as_declared (l ++ m) s.
Proof.
  intros [H|(p & ts & t & h1 & h2 & h3)]; [left; exact H|right].
  exists p, ts, t. split; [exact h1|]. split; [|exact h3].
  rewrite nth_error_app1; [exact h2|]. apply nth_error_Some. congruence.
Qed.

Lemma step_refl d : step d d.
Proof.
  constructor.
  - exists []. symmetry. apply app_nil_r.
  - auto.
  - lia.
  - intros m E _ _ _ _. assert (m = []) by (apply (app_inv_head (syms d)); rewrite app_nil_r; auto).
    subst. cbn. auto.
Qed.
Lemma step_trans d1 d2 d3 : step d1 d2 -> step d2 d3 -> step d1 d3.
Proof.
  intros [[m1 a1] a2 a3 a4] [[m2 b1] b2 b3 b4].
  assert (Hf : types_fit (syms d3) -> types_fit (syms d2)).
  { intros H s t I E. apply (H s t); [|exact E]. rewrite b1. apply in_or_app. auto. }
  constructor.
  - exists (m1 ++ m2). rewrite b1, a1. symmetry. apply app_assoc.
  - auto.
  - intros H. specialize (b3 H). specialize (a3 (Hf H)). lia.
  - intros m E K F P Q.
    assert (m = m1 ++ m2).
    { apply (app_inv_head (syms d1)). rewrite <- E, b1, a1. symmetry. apply app_assoc. }
    subst m. rewrite variables_app.
    pose proof (a3 (Hf F)) as h1. pose proof (b3 F) as h2.
    destruct (a4 m1 a1 K (Hf F) P) as [l1 p1]; [lia|].
    destruct (b4 m2 b1 (a2 K) F) as [l2 p2]; [lia|lia|].
    split; [eapply laid_app; eauto|]. apply Forall_app. split; [|exact p2].
    eapply Forall_impl; [|exact p1]. intros s h. rewrite b1. apply as_declared_more. exact h.
Qed.

(** What only touches other things *)
Lemma step_same d d' : syms d' = syms d -> gStack d' = gStack d -> step d d'.
Proof.
  intros E S. constructor.
  - exists []. rewrite E. symmetry. apply app_nil_r.
  - rewrite E. auto.
  - lia.
  - intros m E' _ _ _ _. assert (m = []).
    { apply (app_inv_head (syms d)). rewrite app_nil_r. congruence. }
    subst. cbn. split; [congruence|constructor].
Qed.
(** What is in the frame *)
Lemma step_frm A (m : M A) Q d a d' :
  (forall L U l0 s0, frm false L U l0 s0 m Q) -> mono m -> m d = Done a d' -> step d d'.
Proof.
  intros H Hm E. pose proof (Hm _ _ _ E) as h.
  destruct (H (nsyms d) (nsyms d') (syms d) (gStack d) d a d' E) as [[p1 p2 p3 p4] _].
  - constructor; auto.
    + unfold nsyms. apply firstn_all.
    + unfold nsyms. rewrite skipn_all. constructor.
  - lia.
  - assert (E1 : syms d' = syms d ++ skipn (nsyms d) (syms d')).
    { rewrite <- p1 at 1. symmetry. apply firstn_skipn. }
    constructor.
    + eexists. exact E1.
    + intros K s t I Et. rewrite E1 in I. apply in_app_or in I. destruct I as [I|I]; [exact (K s t I Et)|].
      rewrite Forall_forall in p3. apply p3 in I. destruct I as [_ I]. unfold leads in I. rewrite Et in I. apply I.
    + lia.
    + intros m' E' _ _ _ _. assert (m' = skipn (nsyms d) (syms d')).
      { apply (app_inv_head (syms d)). congruence. }
      subst m'. assert (V : variables (skipn (nsyms d) (syms d')) = []).
      { clear - p3. induction p3 as [|s l [h _] _ IH]; [reflexivity|]. cbn. unfold not_var in h.
        destruct (sParm s); auto; contradiction. }
      rewrite V. cbn. auto.
Qed.

(** ** The type of a declaration *)

(** [p] is a type of the size of g_dwVarSize, or a file. *)
Definition typed (p : nat) (d : ds) : Prop :=
  exists s, nth_error (syms d) p = Some s /\
    ((exists t, sParm s = PType t /\ gVarSize d = s32 (tSize t)) \/
     (exists t, as_type p d = Done t d /\ (tType t = sFILE \/ tType t = sTEXTFILE))).

Lemma tid_size d p d' : type_identifier d = Done (Some p) d' ->
  exists s t, nth_error (syms d') p = Some s /\ sParm s = PType t /\ gVarSize d' = s32 (tSize t).
Proof.
  unfold type_identifier, bind, token. intros E.
  destruct (gTok d =? sTYPE); [|discriminate]. cbn [tkn_ptr] in E.
  destruct (gPtr d) as [q|]; [|discriminate]. cbn [getToken] in E.
  unfold get_type, bind, get_sym in E. rewrite next_syms in E.
  destruct (nth_error (syms d) q) as [s|] eqn:N; [|discriminate].
  destruct (sParm s) as [t| | | |] eqn:Es; try discriminate. cbn in E.
  assert (H : forall d1, Done (Some q) d1 = Done (Some p) d' -> syms d1 = syms d -> gVarSize d1 = s32 (tSize t) ->
     exists s t, nth_error (syms d') p = Some s /\ sParm s = PType t /\ gVarSize d' = s32 (tSize t)).
  { intros d1 H h1 h2. inversion H; subst. exists s, t. rewrite h1. auto. }
  destruct (tType t =? sSTRING).
  - destruct (_ =? tLBRACK); [discriminate|]. eapply H; [exact E| |reflexivity]. cbn. apply next_syms.
  - eapply H; [exact E| |reflexivity]. cbn. apply next_syms.
Qed.
Lemma td_size n name d p d' : type_denoter n name d = Done p d' ->
  exists s t, nth_error (syms d') p = Some s /\ sParm s = PType t /\ gVarSize d' = s32 (tSize t).
Proof.
  destruct n as [|n]; cbn [type_denoter]; [discriminate|]. unfold bind at 1. intros E.
  destruct (type_identifier d) as [[q|] d1| | | |] eqn:E1; try discriminate.
  - inversion E; subst. eapply tid_size; exact E1.
  - unfold bind at 1 in E. destruct (new_complex_type _ _ _ d1) as [q d2| | | |]; try discriminate.
    unfold bind at 1 in E.
    match type of E with match ?m d2 with _ => _ end = _ => destruct (m d2) as [q' d3| | | |] end; try discriminate.
    destruct q' as [q'|]; [|discriminate].
    unfold bind, get_type, bind, get_sym in E.
    destruct (nth_error (syms d3) q') as [s|] eqn:N; [|discriminate].
    destruct (sParm s) as [t| | | |] eqn:Es; try discriminate. cbn in E. inversion E; subst.
    exists s, t. cbn. auto.
Qed.

Lemma file_of_file q d p d' : file_of q d = Done p d' ->
  exists r s t, p = Some r /\ nth_error (syms d') r = Some s /\ sParm s = PType t /\ tType t = sFILE.
Proof.
  unfold file_of. unfold bind at 1. destruct (get_type q d) as [ty d1| | | |]; try discriminate.
  unfold bind at 1. cbn [add_type add_sym].
  unfold bind, upd_type, upd. cbn [syms set_syms ret].
  set (l1 := syms d1 ++ _). set (r := length (syms d1)). intros E. inversion E; subst. clear E.
  exists r. cbn [syms set_syms]. rewrite nth_upd, Nat.eqb_refl. unfold l1, r.
  rewrite nth_error_app2, Nat.sub_diag by lia. cbn. eexists _, _. repeat split.
Qed.
Lemma frm_file_of q L U l0 s0 : frm false L U l0 s0 (file_of q) any.
Proof. unfold file_of. fss. Qed.
Lemma mono_file_of q : mono (file_of q). Proof. unfold file_of. ms. Qed.
#[export] Hint Resolve mono_file_of : mono.
Lemma frm_ftd L U l0 s0 : frm false L U l0 s0 file_type_denoter any.
Proof. unfold file_type_denoter. fss; apply frm_file_of. Qed.
Lemma mono_ftd : mono file_type_denoter. Proof. unfold file_type_denoter. ms. Qed.
#[export] Hint Resolve mono_ftd : mono.

Lemma as_type_at p s t d : nth_error (syms d) p = Some s -> sParm s = PType t -> as_type p d = Done t d.
Proof. intros N E. unfold as_type, bind, get_sym. rewrite N, E. reflexivity. Qed.

(** The first part of pas_FileTypeDenoter *)
Definition ftd_first : M (option nat) :=
  t <- token;;
  if t =? sTEXTFILE then not_modelled
  else if t =? tFILE then
    getToken;; expect tOF eOF;;
    x <- token;;
    if negb (x =? sTYPE) then error eINVTYPE;; ret None
    else q <- tkn_ptr;;
         match q with None => ub | Some q => p <- file_of q;; getToken;; ret p end
  else ret None.
Definition is_filetype (p : option nat) (d : ds) : Prop :=
  match p with
  | None => True
  | Some p => exists s t, nth_error (syms d) p = Some s /\ as_type p d = Done t d /\ (tType t = sFILE \/ tType t = sTEXTFILE)
  end.
Lemma filetype_same p d d' : syms d' = syms d -> is_filetype p d -> is_filetype p d'.
Proof.
  intros E. destruct p as [p|]; [|auto]. intros (s & t & h1 & h2 & h3). exists s, t.
  rewrite E. split; [exact h1|]. split; [|exact h3]. unfold as_type, bind, get_sym in *. rewrite E, h1 in *.
  destruct (sParm s); inversion h2; reflexivity.
Qed.
Lemma file_of_ok q d p d' : file_of q d = Done p d' -> is_filetype p d'.
Proof.
  intros E. apply file_of_file in E. destruct E as (r & s & t & -> & h1 & h2 & h3). exists s, t.
  split; [exact h1|]. split; [exact (as_type_at _ _ _ _ h1 h2)|]. auto.
Qed.
Lemma ftd_first_ok d p d' : ftd_first d = Done p d' -> is_filetype p d'.
Proof.
  unfold ftd_first. unfold bind at 1, token. intros E.
  destruct (_ =? sTEXTFILE); [discriminate|]. destruct (_ =? tFILE); [|inversion E; exact I].
  unfold bind at 1, getToken in E. unfold bind at 1 in E.
  destruct (expect _ _ _) as [x d1| | | |]; try discriminate.
  unfold bind at 1 in E. cbn [token] in E. destruct (negb _); [inversion E; exact I|].
  unfold bind at 1, tkn_ptr in E. destruct (gPtr d1) as [q|]; [|discriminate].
  unfold bind at 1 in E. destruct (file_of q d1) as [r d2| | | |] eqn:E2; try discriminate.
  unfold bind, getToken, ret in E. inversion E; subst.
  apply file_of_ok in E2. eapply filetype_same; [|exact E2]. apply next_syms.
Qed.
Lemma ftd_ok d p d' : file_type_denoter d = Done p d' -> is_filetype p d'.
Proof.
  change file_type_denoter with
    (p <- ftd_first;;
     q <- tkn_ptr;;
     match q with
     | None => ret p
     | Some q =>
       b <- base_type q;; bt <- as_type b;;
       if tType bt =? sTEXTFILE then getToken;; ret (Some b)
       else if tType bt =? sFILE then
         match tPar bt with None => ub | Some e => f <- file_of e;; getToken;; ret f end
       else ret p
     end).
  unfold bind at 1. destruct (ftd_first d) as [r d1| | | |] eqn:E1; try discriminate.
  apply ftd_first_ok in E1. unfold bind at 1, tkn_ptr. destruct (gPtr d1) as [q|].
  2:{ intros E. inversion E; subst. exact E1. }
  unfold bind at 1. destruct (base_type q d1) as [b d2| | | |] eqn:E2; try discriminate.
  apply base_type_same in E2. subst d2.
  unfold bind at 1. destruct (as_type b d1) as [bt d2| | | |] eqn:E3; try discriminate.
  pose proof (as_type_same _ _ _ _ E3). subst d2.
  destruct (tType bt =? sTEXTFILE) eqn:Q.
  - unfold bind, getToken, ret. intros E. inversion E; subst.
    eapply (filetype_same (Some b)); [apply next_syms|].
    assert (N : exists s, nth_error (syms d1) b = Some s).
    { unfold as_type, bind, get_sym in E3. destruct (nth_error (syms d1) b); [eauto|discriminate]. }
    destruct N as [s N]. exists s, bt. split; [exact N|]. split; [exact E3|]. right. lia.
  - destruct (tType bt =? sFILE).
    + destruct (tPar bt) as [e|]; [|discriminate]. unfold bind at 1.
      destruct (file_of e d1) as [f d2| | | |] eqn:E4; try discriminate.
      unfold bind, getToken, ret. intros E. inversion E; subst.
      apply file_of_ok in E4. eapply filetype_same; [|exact E4]. apply next_syms.
    + intros E. inversion E; subst. exact E1.
Qed.

(** ** Allocation *)

Lemma u16_small x : 0 <= x < 65536 -> u16 x = x.
Proof. intros H. unfold u16. apply Z.mod_small. exact H. Qed.
Lemma app_one_inv (l m : list sym) s : l ++ [s] = l ++ m -> m = [s].
Proof. intros E. apply app_inv_head in E. auto. Qed.

Lemma alloc_step name p d d' : typed p d -> allocate name p d = Done tt d' ->
  step d d' /\ typed p d'.
Proof.
  intros (s & N & T) E. unfold allocate in E. unfold bind at 1 in E.
  destruct (as_type p d) as [t d1| | | |] eqn:Et; try discriminate.
  pose proof (as_type_same _ _ _ _ Et). subst d1.
  unfold bind at 1 in E. cbn [dstack] in E.
  assert (Hm : forall x, nth_error (syms d ++ [x]) p = Some s).
  { intros x. rewrite nth_error_app1; [exact N|]. apply nth_error_Some. congruence. }
  assert (Hk : forall x v, sParm x = PVar v -> types_marked (syms d) -> types_marked (syms d ++ [x])).
  { intros x v Ex K s1 t1 I E1. apply in_app_or in I. destruct I as [I|[I|[]]]; [exact (K _ _ I E1)|congruence]. }
  assert (Ht : forall d'' x, syms d'' = syms d ++ [x] -> gVarSize d'' = gVarSize d -> typed p d'').
  { intros d'' x h1 h2. exists s. rewrite h1. split; [apply Hm|]. destruct T as [(t' & T1 & T2)|(t' & T1 & T2)].
    - left. exists t'. rewrite h2. auto.
    - right. exists t'. split; [|exact T2]. inversion T1; subst t'.
      clear - Et N Hm h1. unfold as_type, bind, get_sym in *.
      rewrite h1, Hm. rewrite N in Et. destruct (sParm s); inversion Et; reflexivity. }
  destruct ((tType t =? sFILE) || (tType t =? sTEXTFILE)) eqn:Hfile.
  - unfold bind at 1, add_file, add_sym in E. destruct (out32 _); [discriminate|].
    unfold set_dstack in E. inversion E; subst. clear E. cbn [syms set_syms gStack] in *.
    split; [|eapply Ht; reflexivity].
    constructor; cbn [syms set_syms gStack].
    + eauto.
    + eapply Hk. reflexivity.
    + unfold sINT_SIZE. lia.
    + intros m Em K F P Q. apply app_one_inv in Em. subst m. cbn. unfold start, extent. cbn.
      unfold sINT_SIZE in *. rewrite u16_small by lia.
      split; [lia|]. constructor; [|constructor]. left. unfold is_file. cbn.
      split; [|reflexivity]. unfold sFILE, sTEXTFILE in Hfile. lia.
  - destruct T as [(t' & T1 & T2)|(t' & T1 & T2)].
    2:{ inversion T1; subst t'. exfalso. unfold sFILE, sTEXTFILE in *. lia. }
    assert (t' = t) by (rewrite (as_type_at _ _ _ _ N T1) in Et; congruence). subst t'.
    unfold bind at 1 in E.
    match type of E with match ?m d with _ => _ end = _ => destruct (m d) as [al d1| | | |] eqn:Ea end; try discriminate.
    assert (Hd : d1 = d /\ (types_marked (syms d) -> Z.even (if al then INT_ALIGNUP (gStack d) else gStack d) = true \/ tSize t = 1)).
    { unfold INT_ALIGNUP. destruct (INT_ISALIGNED (gStack d)) eqn:Hi.
      - inversion Ea; subst. split; [reflexivity|]. intros _. left. unfold INT_ISALIGNED in Hi.
        rewrite Zeven_mod. unfold Zeq_bool. assert (h : gStack d1 mod 2 = 0) by lia. rewrite h. reflexivity.
      - cbn [int_align_required] in Ea. unfold bind at 1 in Ea. rewrite Et in Ea.
        destruct (tSize t =? 1) eqn:H1.
        { inversion Ea; subst. split; [reflexivity|]. intros _. right. lia. }
        unfold bind at 1, get_sym in Ea. rewrite N in Ea. destruct (sKind s =? sARRAY) eqn:Hs.
        + unfold bind at 1 in Ea. destruct (base_type p d) as [b d2| | | |] eqn:Eb; try discriminate.
          apply base_type_same in Eb. subst d2. unfold bind at 1 in Ea.
          destruct (as_type b d) as [bt d2| | | |] eqn:Ec; try discriminate. apply as_type_same in Ec. subst d2.
          inversion Ea; subst. split; [reflexivity|]. intros K. apply nth_error_In in N.
          apply (K _ _ N) in T1. unfold sARRAY in Hs. lia.
        + inversion Ea; subst. split; [reflexivity|]. intros _. left.
          rewrite Z.mul_comm, Z.even_mul. reflexivity. }
    destruct Hd as [-> Hev]. cbv zeta in E. set (d1 := if al then _ else _) in *.
    unfold bind at 1, var_size in E. unfold bind at 1, add_variable, add_sym in E.
    destruct (out32 d1 || _); [discriminate|]. unfold set_dstack in E. inversion E; subst d'. clear E.
    assert (Hd1 : gStack d <= d1 <= gStack d + 1).
    { unfold d1, INT_ALIGNUP. destruct al; [|lia]. pose proof (Z.div_mod (gStack d + 1) 2). pose proof (Z.mod_pos_bound (gStack d + 1) 2). lia. }
    assert (Hx : forall l, In s l -> types_fit l -> gVarSize d = tSize t /\ 0 <= tSize t < 65536).
    { intros l I F. specialize (F _ _ I T1). rewrite T2. unfold s32, u32. split; [|lia].
      cbv zeta. rewrite Z.mod_small by lia. destruct (_ <? _) eqn:Q; lia. }
    assert (Hin : forall x, In s (syms d ++ [x])).
    { intros x. apply in_or_app. left. eapply nth_error_In; exact N. }
    split; [|eapply Ht; reflexivity].
    constructor; cbn [syms set_syms gStack].
    + eauto.
    + eapply Hk. reflexivity.
    + intros F. destruct (Hx _ (Hin _) F). lia.
    + intros m Em K F P Q. apply app_one_inv in Em. subst m. cbn.
      destruct (Hx _ (Hin _) F) as [Hv Hr]. rewrite Hv in *.
      unfold start, extent. cbn. rewrite !u16_small by lia.
      split; [lia|]. constructor; [|constructor]. right. exists p, s, t.
      unfold start, extent. cbn. rewrite Hm.
      repeat match goal with |- _ /\ _ => split end; try reflexivity; try exact T1.
      apply Hev. exact K.
Qed.

Lemma step_next d st : step d (next_from st d).
Proof. apply step_same; [apply next_syms|apply next_stack]. Qed.
Lemma step_expect t e d d' : expect t e d = Done tt d' -> step d d'.
Proof.
  unfold expect, bind, token. destruct (_ =? _); intros E; inversion E; subst.
  - apply step_next.
  - apply step_same; reflexivity.
Qed.

Lemma declare_var_step n : forall k d tp d', declare_var k n d = Done tp d' ->
  step d d' /\ match tp with Some p => typed p d' | None => True end.
Proof.
  induction k as [|k IH]; intros d tp d' E; cbn [declare_var] in E; [discriminate|].
  unfold bind at 1, tkn_str in E. unfold bind at 1, getToken in E. unfold bind at 1, token in E.
  set (d1 := next_from 0 d) in E. pose proof (step_next d 0 : step d d1) as S1.
  unfold bind at 1 in E.
  match type of E with match ?m d1 with _ => _ end = _ => destruct (m d1) as [tp1 d5| | | |] eqn:E1 end; try discriminate.
  assert (H : step d d5 /\ match tp1 with Some p => typed p d5 | None => True end).
  { clear E. destruct (gTok d1 =? tCOMMA).
    - unfold bind at 1, getLevelToken in E1. unfold bind at 1, token in E1.
      set (d2 := next_from (gLevel d1) d1) in E1. pose proof (step_next d1 (gLevel d1) : step d1 d2) as S2.
      pose proof (step_trans _ _ _ S1 S2) as S3.
      destruct (gTok d2 =? tIDENT).
      + apply IH in E1. destruct E1 as [S4 T]. split; [eapply step_trans; eauto|exact T].
      + unfold bind, error in E1. inversion E1; subst. split; [|exact I].
        eapply step_trans; [exact S3|]. apply step_same; reflexivity.
    - unfold bind at 1 in E1. destruct (expect _ _ d1) as [[] d2| | | |] eqn:E2; try discriminate.
      apply step_expect in E2. pose proof (step_trans _ _ _ S1 E2) as S2.
      unfold bind at 1 in E1. destruct (file_type_denoter d2) as [f d3| | | |] eqn:E3; try discriminate.
      pose proof (step_frm _ _ _ _ _ _ (fun L U l0 s0 => frm_ftd L U l0 s0) mono_ftd E3) as S3.
      pose proof (step_trans _ _ _ S2 S3) as S4. apply ftd_ok in E3.
      destruct f as [p|].
      + inversion E1; subst. split; [exact S4|]. destruct E3 as (s & t & h1 & h2 & h3).
        exists s. split; [exact h1|]. right. eauto.
      + unfold bind at 1 in E1. destruct (type_denoter n 0 d3) as [p d4| | | |] eqn:E4; try discriminate.
        pose proof (step_frm _ _ _ _ _ _ (fun L U l0 s0 => frm_td n 0 L U l0 s0) (mono_td n 0) E4) as S5.
        apply td_size in E4. destruct E4 as (s & t & h1 & h2 & h3).
        unfold bind, token in E1. destruct (_ =? tEQ); [discriminate|]. inversion E1; subst.
        split; [eapply step_trans; eauto|]. exists s. split; [exact h1|]. left. eauto. }
  destruct H as [S2 T]. destruct tp1 as [p|].
  - unfold bind in E. destruct (allocate _ p d5) as [[] d6| | | |] eqn:E6; try discriminate.
    apply alloc_step in E6; [|exact T]. inversion E; subst. destruct E6 as [S6 T6].
    split; [eapply step_trans; eauto|exact T6].
  - inversion E; subst. auto.
Qed.

Lemma var_loop_step n : forall k d d', var_loop k n d = Done tt d' -> step d d'.
Proof.
  induction k as [|k IH]; intros d d' E; cbn [var_loop] in E; [discriminate|].
  unfold bind at 1, token in E. destruct (gTok d =? tIDENT).
  2:{ inversion E; subst. apply step_refl. }
  unfold bind at 1 in E. destruct (declare_var n n d) as [tp d1| | | |] eqn:E1; try discriminate.
  apply declare_var_step in E1. destruct E1 as [S1 _].
  unfold bind at 1, token in E. destruct (gTok d1 =? tSEMI).
  - unfold bind, getToken in E. apply IH in E. eapply step_trans; [exact S1|].
    eapply step_trans; [apply step_next|exact E].
  - inversion E; subst. exact S1.
Qed.

Theorem storage n d d' :
  var_group n d = Done tt d' -> types_marked (syms d) -> types_fit (syms d') ->
  0 <= gStack d -> gStack d' < 65536 ->
  exists m, syms d' = syms d ++ m /\ all_apart (variables m) /\
    Forall (within (gStack d) (gStack d')) (variables m) /\
    Forall (as_declared (syms d')) (variables m).
Proof.
  intros E K F P Q. apply var_loop_step in E. destruct E as [[m E] _ _ H].
  exists m. destruct (H m E K F P Q) as [h1 h2].
  split; [exact E|]. split; [eapply laid_apart; exact h1|]. split; [apply laid_within; exact h1|exact h2].
Qed.
