(** Array elements in factors and assignments. *)

From Coq Require Import ZArith Bool List Lia ZifyBool.
From Verif Require Import Words WordLemmas State StateLemmas Opcodes EncodeModel Machine VmSpec
  ExprModel ExprSpec ExprRun ExprOps ExprLoad ExprProofs ExprMain ExprAccept ExprTotal
  OptSpec StmtModel StmtSpec StmtPlain StmtRun StmtStore ArrModel ArrSpec ArrProofs ArrRun.
From Verif Require DeclModel DeclSpec.
Import ListNotations.
Open Scope Z_scope.

Lemma kind_class t : class_of t <> None -> map_type (kind_of t) = Some t /\ kind_of t <> 0x55.
Proof. destruct t; cbn; intros H; try (elim H; reflexivity); split; try reflexivity; discriminate. Qed.

Lemma array_entry l p a : array_at l p a -> proper a ->
  exists s t e, nth_error l p = Some s /\ type_of l p = Some t /\ base_type l t = Some e /\
    element_kind e = kind_of (aty a) /\ DeclModel.tSize e = size_of (aty a) /\
    DeclModel.tDim t = Z.of_nat (length (abounds a)) /\
    DeclSpec.indexes l 0 (length l) (DeclModel.tIdx t) (size_of (aty a)) (abounds a).
Proof.
  intros (s & t & N & K & Pt & T & D & Ix & q & s' & e & Q & N' & K' & Pe & Sz & Pn & Ty) (_ & _ & _ & _ & Cl).
  exists s, t, e. split; [exact N|]. split; [unfold type_of; rewrite N, Pt, K; reflexivity|]. split.
  - unfold base_type. destruct (length l) as [|n] eqn:Ll.
    + apply length_zero_iff_nil in Ll. subst l. destruct p; discriminate N.
    + cbn [base_loop]. rewrite Q. unfold type_of. rewrite N', Pe, K'. cbn [Z.eqb Pos.eqb]. rewrite T. cbn [Z.eqb Pos.eqb].
      change (sTYPE) with 0x44. cbn. destruct n; cbn [base_loop]; rewrite Pn; reflexivity.
  - split; [|auto]. destruct (kind_class _ Cl) as (_ & Kn). unfold element_kind, sSUBRANGE.
    destruct Ty as [Ty|(Ty & Su)]; rewrite Ty; [|exact Su].
    destruct (kind_of (aty a) =? 0x55) eqn:E; [lia|reflexivity].
Qed.

Lemma push4 c : data_op oPUSH 4 c = append (lpush 4) c.
Proof. rewrite emit_push by lia. reflexivity. Qed.

Lemma load_element_eq lev a v c r ps : proper a -> reachable lev a -> sLevel v = alev a -> vOffset v = aoff a -> g_level c = lev ->
  load_element (kind_of (aty a)) (size_of (aty a)) v (after c r ps) = after c r (ps ++ load_code lev a).
Proof.
  intros Pr Re H1 H2 Lv. pose proof (base_addressable lev a Pr Re) as Ad. destruct Pr as (_ & _ & _ & _ & Cl).
  assert (X : forall opc c0, In opc [oLDSX; oLDSXB; oULDSXB; oLDSXM] -> g_level c0 = lev -> stack_ref opc v c0 = append (refer lev opc (abase a)) c0).
  { intros opc c0 I G. apply xref_eq; auto. cbn [In] in *. tauto. }
  unfold load_code, load_element. destruct (aty a); try (elim Cl; reflexivity); cbn [kind_of size_of is32 loadx_op class_of].
  all: match goal with |- context [is_word_var ?k] => let b := eval vm_compute in (is_word_var k) in change (is_word_var k) with b end; cbv iota.
  all: try match goal with |- context [?k =? sSHORTINT] => let b := eval vm_compute in (k =? sSHORTINT) in change (k =? sSHORTINT) with b end; cbv iota.
  all: try match goal with |- context [is_byte_var ?k] => let b := eval vm_compute in (is_byte_var k) in change (is_byte_var k) with b end; cbv iota.
  all: rewrite ?push4, ?append_after; rewrite X; [|cbn [In]; tauto|exact Lv]; rewrite append_after; rewrite <- ?app_assoc; reflexivity.
Qed.

Lemma store_element_eq lev a v c r ps : proper a -> reachable lev a -> sLevel v = alev a -> vOffset v = aoff a -> g_level c = lev ->
  (if is_word_var (kind_of (aty a)) then stack_ref oSTSX v (after c r ps)
   else if is_byte_var (kind_of (aty a)) then stack_ref oSTSXB v (after c r ps)
   else stack_ref oSTSXM v (data_op oPUSH (size_of (aty a)) (after c r ps))) = after c r (ps ++ xstore_code lev a).
Proof.
  intros Pr Re H1 H2 Lv. pose proof (base_addressable lev a Pr Re) as Ad. destruct Pr as (_ & _ & _ & _ & Cl).
  assert (X : forall opc c0, In opc [oSTSX; oSTSXB; oSTSXM] -> g_level c0 = lev -> stack_ref opc v c0 = append (refer lev opc (abase a)) c0).
  { intros opc c0 I G. apply xref_eq; auto. cbn [In] in *. tauto. }
  unfold xstore_code. destruct (aty a); try (elim Cl; reflexivity); cbn [kind_of size_of is32 storex_op class_of].
  all: match goal with |- context [is_word_var ?k] => let b := eval vm_compute in (is_word_var k) in change (is_word_var k) with b end; cbv iota.
  all: try match goal with |- context [is_byte_var ?k] => let b := eval vm_compute in (is_byte_var k) in change (is_byte_var k) with b end; cbv iota.
  all: rewrite ?push4, ?append_after; rewrite X; [|cbn [In]; tauto|exact Lv]; rewrite append_after; rewrite <- ?app_assoc; reflexivity.
Qed.

Section Main.
  Variables (lev : Z) (l : list DeclModel.sym) (p : nat) (a : arr) (v : sym).
  Hypothesis At : array_at l p a.
  Hypothesis Pr : proper a.

  Lemma offset_sound ts es : gindices ts es -> length es = length (abounds a) -> Forall (index_ok lev) es ->
    exists t ps, type_of l p = Some t /\
    (forall c rest n b, toks c = b :: ts ++ rest -> tk b = tLBRACK -> g_level c = lev -> (4 * length (toks c) + 5 <= n)%nat ->
       array_index n l t c = ADone (after c rest ps)) /\
    forall env vs, ivalues env es vs ->
      computes lev ps (2 * Z.of_nat (length ts) + 1) (ivars es) env [distance (size_of (aty a)) (abounds a) vs mod 65536].
  Proof.
    intros G Le Ok. destruct (array_entry l p a At Pr) as (s & t & e & N & T & _ & _ & _ & D & Ix).
    destruct (index_code lev l a p s t ts es G Pr Le N D Ix Ok) as (ps & H). exists t, ps. auto.
  Qed.

  Hypothesis Re : reachable lev a.
  Hypothesis Hl : sLevel v = alev a.
  Hypothesis Ho : vOffset v = aoff a.

  Lemma load_sound ts es : gindices ts es -> length es = length (abounds a) -> Forall (index_ok lev) es ->
    exists ps,
    (forall c rest n b, toks c = b :: ts ++ rest -> tk b = tLBRACK -> g_level c = lev -> (4 * length (toks c) + 5 <= n)%nat ->
       array_factor n l v p c = (Some (aty a), ADone (after c rest ps))) /\
    forall env vs, ivalues env es vs -> Forall2 bounded (abounds a) vs ->
      computes lev ps (2 * Z.of_nat (length ts) + 3) (ivars es ++ [elem a vs]) env (words (aty a) (env (elem a vs))).
  Proof.
    intros G Le Ok. destruct (array_entry l p a At Pr) as (s & t & e & N & T & B & K & Sz & D & Ix).
    destruct (index_code lev l a p s t ts es G Pr Le N D Ix Ok) as (ps & H & C). exists (ps ++ load_code lev a). split.
    - intros c rest n b Tk Hb Lv Hn. unfold array_factor. rewrite T, B, K.
      rewrite (proj1 (kind_class (aty a) ltac:(apply Pr))).
      unfold token, cur. rewrite Tk. cbn [hd]. rewrite Hb. change (tLBRACK =? tLBRACK) with true. cbv iota.
      rewrite (H c rest n b Tk Hb Lv Hn). cbn [binda]. rewrite Sz.
      rewrite (load_element_eq lev a v c rest ps Pr Re Hl Ho Lv). reflexivity.
    - intros env vs V Bd. replace (2 * Z.of_nat (length ts) + 3) with (2 * Z.of_nat (length ts) + 1 + 2) by lia.
      apply (load_elem lev a Pr Re vs Bd ps _ (ivars es) env (C env vs V)). lia.
  Qed.

  Lemma store_sound ts es us e : gindices ts es -> length es = length (abounds a) -> Forall (index_ok lev) es ->
    gexpr us e -> etype_of (aty a) e = Some (aty a) -> (forall x, In x (evars e) -> addressable lev x) ->
    exists ps,
    (forall c rest n b g, toks c = b :: ts ++ g :: us ++ rest -> tk b = tLBRACK -> tk g = tASSIGN -> ended rest ->
       g_level c = lev -> (4 * length (toks c) + 5 <= n)%nat ->
       array_assignment n l v p c = ADone (after c rest ps)) /\
    forall xs adr links base s0, placed lev xs adr links base s0 -> c_ssz (cf s0) mod 2 = 0 ->
    forall s r vs z, ready xs adr links base s0 s r -> room s (2 * Z.of_nat (length (ts ++ us)) + 3) ->
      incl (ivars es ++ evars e) xs -> In (elem a vs) xs ->
      ivalues r es vs -> Forall2 bounded (abounds a) vs -> evalue r (aty a) e = Some z -> storable (aty a) z = true ->
      exists s', exec_list ps s = Ok s' /\ effect xs adr s s' 0 (set r (elem a vs) z).
  Proof.
    intros G Le Ok Ge Te Ue. destruct (array_entry l p a At Pr) as (s & t & e' & N & T & B & K & Sz & D & Ix).
    destruct (index_code lev l a p s t ts es G Pr Le N D Ix Ok) as (ps & H & C).
    destruct (expr_after lev us e (aty a) (aty a) Ge Te Ue) as (qs & He & Ce).
    exists ((ps ++ qs) ++ xstore_code lev a). split.
    - intros c rest n b g Tk Hb Hg En Lv Hn. unfold array_assignment. rewrite T, B, K.
      rewrite (proj1 (kind_class (aty a) ltac:(apply Pr))).
      unfold token, cur. rewrite Tk. cbn [hd]. rewrite Hb. change (tLBRACK =? tLBRACK) with true. cbv iota.
      rewrite (H c (g :: us ++ rest) n b Tk Hb Lv Hn). cbn [binda].
      unfold expect. rewrite token_after. cbn [hd]. rewrite Hg. change (tASSIGN =? tASSIGN) with true. cbv iota.
      rewrite get_after. rewrite (He _ rest n); [|reflexivity|exact En|exact Lv|].
      2: { rewrite after_toks. rewrite Tk in Hn. cbn [length] in Hn. rewrite app_length in Hn. cbn [length] in Hn. lia. }
      rewrite after_after, Sz. rewrite (store_element_eq lev a v c rest (ps ++ qs) Pr Re Hl Ho Lv). reflexivity.
    - intros xs adr links base s0 Pl Ev s1 r vs z Rd Rm Iv Hx V Bd Vz Sto.
      specialize (C r vs V). rewrite (d_mod a Pr vs Bd) in C. destruct (Ce r z Vz) as (Iz & Cz).
      rewrite app_length in Rm.
      pose proof (computes_seq lev r ps qs _ _ (2 * Z.of_nat (length ts + length us) + 1) _ _ _ _ C Cz ltac:(lia) ltac:(cbn [length]; lia)) as Cs.
      destruct (Cs s1) as (s2 & E2 & P2); [eapply room_mono; [exact Rm|lia]| |].
      { intros x Ix'. apply (ready_located lev xs adr links base s0 Pl Ev s1 r x Rd). apply Iv, Ix'. }
      pose proof (moves_pushed lev xs adr links base s0 Pl Ev s1 s2 _ r Rd P2) as M2.
      pose proof (grammar_nonempty) as (_ & _ & _ & Ne). specialize (Ne us e Ge).
      assert (Nt : (1 <= length ts)%nat) by (destruct G; rewrite app_length; cbn [length]; lia).
      destruct (store_elem lev a Pr Re vs Bd xs adr links base s0 Pl Ev s1 s2 r r z Rd M2) as (s3 & E3 & M3); auto.
      { pose proof (moves_room xs adr s1 s2 _ r _ M2 Rm) as R2. apply (room_mono _ _ _ R2).
        cbn [app length]. unfold words. destruct (is32 (aty a)); cbn [length]; lia. }
      exists s3. split; [rewrite exec_app, E2; exact E3|].
      destruct M3 as (A1 & A2 & A3 & A4 & A5). cbn [length] in A2. split; [exact A1|]. split; [lia|]. split; [exact A5|].
      intros i Hi. apply A4. replace (sp s3) with (sp s1) in Hi by lia. exact Hi.
  Qed.
End Main.
