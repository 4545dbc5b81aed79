(** The statements about array elements, and what contradicts them. *)

From Coq Require Import ZArith Bool List Lia ZifyBool.
From Verif Require Import Words State Opcodes EncodeModel Machine VmSpec OptSpec ExprModel ExprSpec ExprOps ExprLoad ExprCases
  StmtModel StmtSpec StmtRun StmtCases ArrModel ArrSpec ArrProofs ArrRun ArrMain.
From Verif Require DeclModel DeclSpec DeclLayout DeclCases.
Import ListNotations.
Open Scope Z_scope.

(** ** The statements *)

Definition errorless (c c' : comp) (rest : list tok) (ps : list opType) : Prop :=
  toks c' = rest /\ errs c' = errs c /\ out c' = out c ++ ps /\ g_level c' = g_level c /\ g_label c' = g_label c.
Lemma after_errorless c rest ps : errorless c (after c rest ps) rest ps.
Proof. repeat split. Qed.

Lemma offset : forall lev l p a ts es,
  array_at l p a -> proper a -> gindices ts es -> length es = length (abounds a) -> Forall (index_ok lev) es ->
  exists t ps, type_of l p = Some t /\
    (forall c rest n b, toks c = b :: ts ++ rest -> tk b = tLBRACK -> g_level c = lev -> (4 * length (toks c) + 5 <= n)%nat ->
       exists c', array_index n l t c = ADone c' /\ errorless c c' rest ps) /\
    forall env vs, ivalues env es vs ->
      computes lev ps (2 * Z.of_nat (length ts) + 1) (ivars es) env [distance (size_of (aty a)) (abounds a) vs mod 65536].
Proof.
  intros lev l p a ts es At Pr G Le Ok. destruct (offset_sound lev l p a At Pr ts es G Le Ok) as (t & ps & T & H & C).
  exists t, ps. split; [exact T|]. split; [|exact C]. intros c rest n b Tk Hb Lv Hn. eexists. split; [apply (H c rest n b); assumption|apply after_errorless].
Qed.

Lemma inside : forall a vs, proper a -> Forall2 bounded (abounds a) vs ->
  aoff a <= voff (elem a vs) /\ voff (elem a vs) + size_of (aty a) <= aoff a + asize a.
Proof. intros a vs P B. pose proof (d_range a P vs B). cbn [elem voff]. lia. Qed.

Lemma apart : forall a vs ws, proper a -> Forall2 bounded (abounds a) vs -> Forall2 bounded (abounds a) ws -> vs <> ws ->
  disjoint (voff (elem a vs)) (size_of (aty a)) (voff (elem a ws)) (size_of (aty a)).
Proof.
  intros a vs ws P B1 B2 N. pose proof (elem_size a P).
  pose proof (distance_apart (abounds a) (size_of (aty a)) vs ws ltac:(lia) B1 B2 N).
  cbn [elem voff]. unfold disjoint. lia.
Qed.

Lemma load : forall lev l p a v ts es,
  array_at l p a -> proper a -> reachable lev a -> sLevel v = alev a -> vOffset v = aoff a ->
  gindices ts es -> length es = length (abounds a) -> Forall (index_ok lev) es ->
  exists ps,
    (forall c rest n b, toks c = b :: ts ++ rest -> tk b = tLBRACK -> g_level c = lev -> (4 * length (toks c) + 5 <= n)%nat ->
       exists c', array_factor n l v p c = (Some (aty a), ADone c') /\ errorless c c' rest ps) /\
    forall env vs, ivalues env es vs -> Forall2 bounded (abounds a) vs ->
      computes lev ps (2 * Z.of_nat (length ts) + 3) (ivars es ++ [elem a vs]) env (words (aty a) (env (elem a vs))).
Proof.
  intros lev l p a v ts es At Pr Re Hl Ho G Le Ok.
  destruct (load_sound lev l p a v At Pr Re Hl Ho ts es G Le Ok) as (ps & H & C). exists ps. split; [|exact C].
  intros c rest n b Tk Hb Lv Hn. eexists. split; [apply (H c rest n b); assumption|apply after_errorless].
Qed.

Lemma store : forall lev l p a v ts es us e,
  array_at l p a -> proper a -> reachable lev a -> sLevel v = alev a -> vOffset v = aoff a ->
  gindices ts es -> length es = length (abounds a) -> Forall (index_ok lev) es ->
  gexpr us e -> etype_of (aty a) e = Some (aty a) -> (forall x, In x (evars e) -> addressable lev x) ->
  exists ps,
    (forall c rest n b g, toks c = b :: ts ++ g :: us ++ rest -> tk b = tLBRACK -> tk g = tASSIGN -> ended rest ->
       g_level c = lev -> (4 * length (toks c) + 5 <= n)%nat ->
       exists c', array_assignment n l v p c = ADone c' /\ errorless c c' rest ps) /\
    forall xs adr links base s0 s r vs z, placed lev xs adr links base s0 ->
      ready xs adr links base s0 s r -> room s (2 * Z.of_nat (length (ts ++ us)) + 3) ->
      incl (ivars es ++ evars e) xs -> In (elem a vs) xs ->
      ivalues r es vs -> Forall2 bounded (abounds a) vs -> evalue r (aty a) e = Some z -> storable (aty a) z = true ->
      exists s', exec_list ps s = Ok s' /\ effect xs adr s s' 0 (set r (elem a vs) z).
Proof.
  intros lev l p a v ts es us e At Pr Re Hl Ho G Le Ok Ge Te Ue.
  destruct (store_sound lev l p a v At Pr Re Hl Ho ts es us e G Le Ok Ge Te Ue) as (ps & H & C). exists ps. split.
  - intros c rest n b g Tk Hb Hg En Lv Hn. eexists. split; [apply (H c rest n b g); assumption|apply after_errorless].
  - intros xs adr links base s0 s r vs z Pl Rd Rm. apply (C xs adr links base s0 Pl); auto.
    destruct Rd as ((E & _) & _). rewrite <- E. apply Rm.
Qed.

(** The declaration of an array makes the entries that the indices rely on. *)
Lemma latest_one l n p s q s' : DeclSpec.latest l n p s -> DeclSpec.latest l n q s' -> p = q /\ s = s'.
Proof.
  intros (A1 & A2 & A3 & A4) (B1 & B2 & B3 & B4).
  destruct (Nat.lt_trichotomy p q) as [H|[->|H]].
  - elim B3. eapply A4; eauto.
  - split; [reflexivity|congruence].
  - elim A3. eapply B4; eauto.
Qed.
Lemma indexes_widen l : forall is b c q u, DeclSpec.indexes l b c q u is -> DeclSpec.indexes l 0 (length l) q u is.
Proof.
  induction is as [|i is IH]; intros b c q u H; [exact H|].
  destruct H as (p & t & Q & (R & s & N & K) & X). exists p, t. split; [exact Q|]. split.
  - split; [|exists s; split; [exact N|exact K]]. split; [lia|]. apply nth_error_Some. congruence.
  - destruct X as (X1 & X2 & X3 & X4 & X5 & X6). repeat (split; [assumption|]). eapply IH; exact X6.
Qed.

Lemma declared : forall E lo hi more m n y r d T lev off,
  DeclSpec.describes E (DeclModel.syms d) -> DeclSpec.fine E (DeclSpec.TArray lo hi more (DeclSpec.TName m)) ->
  (length (DeclSpec.written (DeclSpec.TArray lo hi more (DeclSpec.TName m))) <= n)%nat -> y <> tLBRACK ->
  DeclModel.rest d = DeclSpec.written (DeclSpec.TArray lo hi more (DeclSpec.TName m)) ++ DeclModel.RK y :: r ->
  class_of T <> None ->
  exists p d', DeclModel.type_denoter n (-1) (DeclModel.next_from 0 d) = DeclModel.Done p d' /\
    DeclModel.derrs d' = DeclModel.derrs d /\
    forall q s e, DeclSpec.latest (DeclModel.syms d') m q s -> DeclModel.sParm s = DeclModel.PType e ->
      DeclModel.tType e = kind_of T -> DeclModel.tSize e = size_of T ->
      let a := mkArr T lev off ((lo, hi) :: more) in array_at (DeclModel.syms d') p a /\ proper a.
Proof.
  intros E lo hi more m n y r d T lev off D F L Y R Cl.
  destruct (DeclLayout.layout E _ n y r d D F L Y R) as (p & d' & H1 & _ & _ & H2 & _ & _ & _ & H3 & Sh).
  exists p, d'. split; [exact H1|]. split; [exact H2|]. intros q s e La Ps Te Se a.
  destruct F as (F1 & F2 & F3 & F4 & F5 & F6).
  cbn [DeclSpec.shaped] in Sh. destruct Sh as (t & (R1 & s1 & N1 & K1 & P1) & _ & Ty & Dm & Ix & q' & Pq & s' & e' & La' & K' & Pe' & Se').
  destruct (latest_one _ _ _ _ _ _ La La') as (-> & ->). rewrite Ps in Pe'. injection Pe' as <-.
  cbn [DeclSpec.sizeof] in *. cbn [DeclSpec.element] in F2.
  destruct F1 as (z & f & Em). rewrite Em in *. subst f.
  assert (Pn : DeclModel.tPar e = None).
  { specialize (H3 m). rewrite Em in H3. destruct H3 as (_ & _ & q0 & s0 & t0 & La0 & _ & Pt0 & _ & X).
    destruct (latest_one _ _ _ _ _ _ La La0) as (-> & ->). rewrite Ps in Pt0. injection Pt0 as <-. auto. }
  assert (Ez : z = size_of T) by lia. clear Se'. subst z.
  split.
  - exists s1, t. cbn [a abounds aty length]. split; [exact N1|]. split; [exact K1|]. split; [exact P1|]. split; [exact Ty|].
    split; [exact Dm|]. split; [eapply indexes_widen; exact Ix|].
    exists q', s', e. split; [exact Pq|]. split; [apply La|]. split; [exact K'|]. split; [exact Ps|]. split; [exact Se|]. split; [exact Pn|].
    left; exact Te.
  - split; [discriminate|]. split; [cbn [a abounds length]; lia|]. split.
    + cbn [a abounds]. eapply Forall_impl; [|exact F3]. intros i (I1 & I2). lia.
    + split; [exact F6|exact Cl].
Qed.

(** ** Cases *)

(** var a : array [1..3, 0..4] of integer in a procedure of level 1 *)
Definition a_type : DeclSpec.ty := DeclSpec.TArray 1 3 [(0, 4)] (DeclSpec.TName 1).
Definition a_start : DeclModel.ds :=
  DeclModel.mkD 0 None 0 0 (DeclSpec.written a_type ++ [DeclModel.RK DeclModel.tSEMI]) DeclCases.standard 5 4 0 0 [] [].
Definition a_end : DeclModel.ds := Eval vm_compute in DeclCases.done (DeclModel.type_denoter 50 (-1) (DeclModel.next_from 0 a_start)) DeclCases.d0.
Definition a_table := Eval vm_compute in DeclModel.syms a_end.
Definition ex_arr := mkArr xInteger 1 8 [(1, 3); (0, 4)].
Definition a_sym := mkSym 1 8 30 0.

Lemma declared_case :
  DeclSpec.describes DeclCases.std_names (DeclModel.syms a_start) /\ DeclSpec.fine DeclCases.std_names a_type /\
  (length (DeclSpec.written a_type) <= 50)%nat /\ DeclModel.rest a_start = DeclSpec.written a_type ++ [DeclModel.RK DeclModel.tSEMI] /\
  DeclModel.type_denoter 50 (-1) (DeclModel.next_from 0 a_start) = DeclModel.Done 5%nat a_end /\
  exists s e, DeclSpec.latest a_table 1 0 s /\ DeclModel.sParm s = DeclModel.PType e /\
    DeclModel.tType e = kind_of xInteger /\ DeclModel.tSize e = size_of xInteger.
Proof.
  split; [exact DeclCases.std_describes|]. split.
  { cbn. repeat match goal with
      | |- _ /\ _ => split
      | |- exists z f, DeclSpec.EType ?a ?b = DeclSpec.EType z f => exists a, b; reflexivity
      | |- Forall _ _ => repeat constructor; unfold DeclSpec.in_range; cbn; lia
      | |- _ => first [reflexivity | lia | discriminate]
      end. }
  split; [vm_compute; lia|]. split; [reflexivity|]. split; [vm_compute; reflexivity|].
  exists (DeclCases.predefined 1 sINT 2), (DeclModel.mkTy sINT 0 0 2 0 0 None None). split; [|split; [reflexivity|split; reflexivity]].
  split; [reflexivity|]. split; [reflexivity|]. split; [vm_compute; discriminate|].
  intros j s' J N Na. do 8 (destruct j as [|j]; [try lia; cbn in N; inversion N; subst s'; cbn in Na; discriminate Na|]).
  destruct j; discriminate N.
Qed.
Lemma ex_at : array_at a_table 5 ex_arr /\ proper ex_arr /\ reachable 1 ex_arr.
Proof.
  destruct declared_case as (D & F & L & R & H & s & e & La & Ps & Te & Se).
  destruct (declared _ 1 3 [(0, 4)] 1 50 DeclModel.tSEMI [] a_start xInteger 1 8 D F L ltac:(discriminate) R ltac:(discriminate))
    as (p & d' & H' & _ & X).
  rewrite H in H'. injection H' as <- <-. destruct (X _ s e La Ps Te Se) as (X1 & X2). split; [exact X1|]. split; [exact X2|].
  vm_compute. intuition congruence.
Qed.

(** [x + 1, 2] *)
Definition ix_tokens := tadd x1 1 ++ kt tCOMMA :: [nt 2] ++ [kt tRBRACK].
Definition ix_exprs := [eadd x1 1; eint 2].
Definition ix_env (k : Z) : var -> Z := fun v => if var_eqb v x1 then k else 0.
Lemma ix_case : gindices ix_tokens ix_exprs /\ length ix_exprs = length (abounds ex_arr) /\ Forall (index_ok 1) ix_exprs /\
  (forall k, -32768 <= k <= 32766 -> ivalues (ix_env k) ix_exprs [k + 1; 2]) /\ Forall2 bounded (abounds ex_arr) [2; 2] /\
  elem ex_arr [2; 2] = mkVar xInteger 1 22.
Proof.
  split; [apply gi_more; [apply gadd; vark|reflexivity|apply gi_last; [apply gint|reflexivity]]|]. split; [reflexivity|]. split.
  { constructor; [|constructor; [|constructor]]; (split; [reflexivity|]); cbn; intros x H; [|destruct H].
    destruct H as [<-|[]]. repeat split; vm_compute; congruence. }
  split; [|split; [repeat constructor; vm_compute; congruence|reflexivity]].
  intros k K. constructor; [|constructor; [reflexivity|constructor]].
  cbn. unfold limit, inr. cbn [class_of].
  replace ((-32768 <=? k) && (k <=? 32767)) with true by lia. cbn [bind].
  replace ((-32768 <=? k + 1) && (k + 1 <=? 32767)) with true by lia. reflexivity.
Qed.

Definition start_ix := start_at 1 (kt tLBRACK :: ix_tokens ++ [semi]).
Lemma load_case :
  array_factor 100 a_table a_sym 5 start_ix =
    (Some xInteger, ADone (after start_ix [semi]
      [mkOp oLDS 0 4; mkOp oPUSH 0 1; mkOp oADD 0 0; mkOp oPUSH 0 1; mkOp oSUB 0 0; mkOp oPUSH 0 2; mkOp oMUL 0 0;
       mkOp oPUSH 0 2; mkOp oPUSH 0 6; mkOp oMUL 0 0; mkOp oADD 0 0; mkOp oLDSX 0 8])) /\
  sLevel a_sym = alev ex_arr /\ vOffset a_sym = aoff ex_arr.
Proof. split; [vm_compute; reflexivity|]. split; reflexivity. Qed.

(** a[x + 1, 2] := x + 40 *)
Definition a_elem := elem ex_arr [2; 2].
Definition vma := mkSt (fun i => if i =? 107 then 1 else 0) (mkCfg 4096 200 2000 0 1000) 250 0 200 0 0 0.
Lemma store_case : placed 1 [x1; a_elem] ex_adr (fun _ => False) 116 vma /\
  ready [x1; a_elem] ex_adr (fun _ => False) 116 vma vma (ix_env 1) /\
  room vma (2 * Z.of_nat (length (ix_tokens ++ tadd x1 40)) + 3) /\
  incl (ivars ix_exprs ++ evars (eadd x1 40)) [x1; a_elem] /\ gexpr (tadd x1 40) (eadd x1 40) /\
  etype_of xInteger (eadd x1 40) = Some xInteger /\
  evalue (ix_env 1) xInteger (eadd x1 40) = Some 41 /\ storable xInteger 41 = true /\
  set (ix_env 1) a_elem 41 a_elem = 41.
Proof.
  split; [|split; [|split; [|split; [|split; [|split; [|split; [|split]]]]]]]; try reflexivity.
  - constructor.
    + lia.
    + intros s (_ & _ & F & _) _ x [<-|[<-|[]]]; cbn; unfold frame_ea; rewrite F; [exists 200, 4|exists 200, 22]; (split; [apply (reaches_0 s 200)|]);
        split; (split; [vm_compute; intuition congruence|exists 0; reflexivity]).
    + intros i [].
    + intros x [<-|[<-|[]]]; vm_compute; intuition congruence.
    + intros x y [<-|[<-|[]]] [<-|[<-|[]]] N; try (destruct N; reflexivity); vm_compute; intuition congruence.
  - split; [repeat split|]. split; [intros i []|]. split; [vm_compute; congruence|]. intros x [<-|[<-|[]]]; reflexivity.
  - repeat split; vm_compute; congruence.
  - intros x. cbn. intuition.
  - apply gadd; vark.
Qed.

(** ** What contradicts *)

(** a[1, 0, 2]: the diagnostic is followed by the use of a null pointer. *)
Lemma too_many_refuted : exists ts es,
  gindices ts es /\ Forall (index_ok 1) es /\ length es = S (length (abounds ex_arr)) /\
  forall rest, array_factor 100 a_table a_sym 5 (start_at 1 (kt tLBRACK :: ts ++ rest)) = (Some xInteger, AUndefined).
Proof.
  exists ([nt 1] ++ kt tCOMMA :: [nt 0] ++ kt tCOMMA :: [nt 2] ++ [kt tRBRACK]), [eint 1; eint 0; eint 2].
  split; [repeat (apply gi_more; [apply gint|reflexivity|]); apply gi_last; [apply gint|reflexivity]|].
  split; [do 3 (constructor; [split; [reflexivity|intros x []]|]); constructor|]. split; [reflexivity|]. intros rest. vm_compute. reflexivity.
Qed.

(** a[2] is accepted. *)
Lemma too_few_refuted : exists ts es c',
  gindices ts es /\ (length es < length (abounds ex_arr))%nat /\
  array_factor 100 a_table a_sym 5 (start_at 1 (kt tLBRACK :: ts)) = (Some xInteger, ADone c') /\ errs c' = [].
Proof.
  exists ([nt 2] ++ [kt tRBRACK]), [eint 2]. eexists.
  split; [apply gi_last; [apply gint|reflexivity]|]. split; [cbn; lia|]. split; vm_compute; reflexivity.
Qed.

(** a[7, 0] := 5 is accepted and writes behind the bounds of the first index: to
    a[1, 2], which is another element. *)
Lemma bounds_refuted : exists ts es c' s',
  gindices ts es /\ ivalues (ix_env 1) es [7; 0] /\ ~ Forall2 bounded (abounds ex_arr) [7; 0] /\
  array_assignment 100 a_table a_sym 5 (start_at 1 (kt tLBRACK :: ts ++ kt tASSIGN :: [nt 5])) = ADone c' /\ errs c' = [] /\
  exec_list (out c') vma = Ok s' /\
  Forall2 bounded (abounds ex_arr) [1; 2] /\ elem ex_arr [1; 2] = mkVar xInteger 1 20 /\
  contains vma xInteger 230 0 /\ contains s' xInteger 230 5.
Proof.
  exists ([nt 7] ++ kt tCOMMA :: [nt 0] ++ [kt tRBRACK]), [eint 7; eint 0]. eexists _, _.
  split; [apply gi_more; [apply gint|reflexivity|]; apply gi_last; [apply gint|reflexivity]|].
  split; [repeat constructor|]. split.
  { intros H. inversion H as [|? ? ? ? B _]. unfold bounded in B. cbn in B. lia. }
  split; [vm_compute; reflexivity|]. split; [reflexivity|]. split; [vm_compute; reflexivity|].
  split; [repeat constructor; vm_compute; congruence|]. split; [reflexivity|]. split; vm_compute; reflexivity.
Qed.
