(** The passes popt_StackOrder, popt_LoadOptimize and popt_StoreOptimize *)

From Coq Require Import ZArith Bool List Lia ZifyBool.
From Verif Require Import Words State Opcodes SetModel LongModel Machine WordLemmas StateLemmas VmSpec VmProofs MemProofs
  EncodeSpec OptSpec OptStack OptPure OptStep OptFine OptUnary OptTable OptExcept OptUnaryStep OptBinary OptMem PoptModel.
Import ListNotations.
Open Scope Z_scope.
Ltac Zify.zify_post_hook ::= Z.div_mod_to_equations.

Ltac wfs := repeat (apply Forall_cons || apply Forall_nil); try assumption; try apply wf_nop.
Ltac codes := rewrite ?code_cons; 
    repeat match goal with H : live ?x = true |- context [live ?x] => rewrite H end;
    try change (live nop) with false; cbv iota; change (code []) with (@nil opType).

Lemma wf_set_arg2 b n : wf_op b -> has16 (op b) = true -> wf_op (set_arg2 b (u16 n)).
Proof.
  intros (H0 & H1 & H2 & H3 & H4) Hb. unfold wf_op, set_arg2. cbn [op arg1 arg2]. pose proof (u16_range n).
  repeat split; try tauto; try lia. intros E. unfold has16 in Hb. congruence.
Qed.

Section Stack.
  Variables (j : nat) (z a b : opType).
  Hypothesis Wz : wf_op z. Hypothesis Wa : wf_op a. Hypothesis Wb : wf_op b.
  Hypothesis Lz : live z = true. Hypothesis La : live a = true. Hypothesis Lb : live b = true.
  Hypothesis Hbad : ~ stack_bad z a b.

  Lemma so_ok : win_ok j [z; a; b] (so_next j).
  Proof. split; [reflexivity|]. split; [constructor|]. split; [cbn; lia|]. apply wclos_refl. Qed.

  Lemma stack_step_ok : win_ok j [z; a; b] (stack_step j z a b).
  Proof.
    unfold stack_step. destruct (Z.eqb_spec (op b) oXCHG) as [Eb|Nb].
    { destruct (check_load a && check_load z) eqn:E; [|apply so_ok]. apply andb_prop in E. destruct E as [Ca Cz].
      split; [reflexivity|]. split; [wfs|]. split; [cbn; lia|]. cbn [length firstn]. codes.
      (apply wclos_refines; [um|]). apply refines_xchg; [| |exact Eb].
      - destruct (load_kinds z Wz Cz) as [H|H]; [exact H|]. exfalso. apply Hbad. apply sb_lar; auto.
      - destruct (load_kinds a Wa Ca) as [H|H]; [exact H|]. exfalso. apply Hbad. apply sb_lar; auto. }
    destruct (Z.eqb_spec (op b) oINDS) as [Eb|Nb']; [|apply so_ok].
    assert (Db : decode_op24 (op b) = Some INDS) by (rewrite Eb; reflexivity).
    pose proof (wf_24 b _ Wb Db) as EB. pose proof Wb as (_ & _ & Wn & _). set (n := arg2 b) in *. 
    assert (Wb' : wf_op (set_arg2 b (u16 (n + 2)))) by (apply wf_set_arg2; [exact Wb|rewrite Eb; reflexivity]).
    assert (EB' : set_arg2 b (u16 (n + 2)) = mkOp oINDS 0 (u16 (n + 2))) by (rewrite EB, Eb; reflexivity).
    assert (EB2 : b = mkOp oINDS 0 n) by (rewrite EB at 1; rewrite Eb; reflexivity).
    assert (Lb' : live (set_arg2 b (u16 (n + 2))) = true) by (rewrite EB'; reflexivity).
    destruct ((s16 n <=? -2) && (check_load a || (op a =? oDUP))) eqn:E1.
    { split; [reflexivity|]. split; [wfs|]. split; [cbn; lia|]. cbn [length firstn]. codes. rewrite EB', EB2.
      change [z; a; mkOp oINDS 0 n] with (z :: [a; mkOp oINDS 0 n]).
      assert (Na : ~ In (op a) marks).
      { apply andb_prop in E1 as [_ E1]. apply orb_prop in E1 as [E1|E1]; [um1|apply Z.eqb_eq in E1; um1]. }
      apply wclos_cons. (apply wclos_refines; [um|]). apply refines_drop; [exact Wn|lia|]. intros s k S0 T L Hr.
      apply load_pushes; try assumption. destruct (check_load a); [left; reflexivity|]. right. lia. }
    destruct ((s16 n <=? -2) && check_store a && (op z =? oDUP)) eqn:E2; [|apply so_ok].
    split; [reflexivity|]. split; [wfs|]. split; [cbn; lia|]. cbn [length firstn]. codes. rewrite EB', EB2.
    assert (Ez : z = mkOp oDUP 0 0).
    { assert (Ez : op z = oDUP) by lia. rewrite (wf_8 z DUP Wz) by (rewrite Ez; reflexivity). rewrite Ez. reflexivity. }
    assert (Na : ~ In (op a) marks) by (apply andb_prop in E2 as [E2 _]; apply andb_prop in E2 as [_ E2]; um1).
    rewrite Ez. (apply wclos_refines; [um|]). intros s R Hsp C _. assert (S0 : start s) by (split; assumption).
    destruct (start_top s S0) as (v0 & v1 & v2 & v3 & T).
    apply (dup_store_drop s R Hsp v0 v1 v2 v3 T); [|exact Wn|lia|exact C].
    apply one_of_In. unfold check_store in E2. unfold store_codes. destruct (one_of _ a) eqn:Eo; [|lia]. reflexivity.
  Qed.
End Stack.

Theorem stack_table t i : Forall wf_op t -> (forall z a b, adjacent3 (visible t) z a b -> ~ stack_bad z a b) ->
  table_step stack_body t i <> Broken /\
  forall t' nx ch, table_step stack_body t i = Next t' nx ch -> preserved t t' /\ Forall wf_op t'.
Proof.
  intros W H. apply table_step_ok; [exact W|]. intros r E. unfold stack_body in E.
  destruct i as [|[|j]]; try discriminate.
  destruct (skipn j (visible t)) as [|a [|b [|o q]]] eqn:Es; try discriminate. injection E as <-.
  pose proof (Forall_skipn _ _ _ _ (visible_wf t W) Es) as Wv.
  pose proof (Forall_skipn _ _ _ _ (visible_live t) Es) as Lv.
  inversion_clear Wv as [|? ? Wa Wv']. inversion_clear Wv' as [|? ? Wb Wv'']. inversion_clear Wv'' as [|? ? Wo _].
  inversion_clear Lv as [|? ? La Lv']. inversion_clear Lv' as [|? ? Lb Lv'']. inversion_clear Lv'' as [|? ? Lo _].
  apply (win_rout j [a; b; o]); [exists q; exact Es|discriminate|]. apply stack_step_ok; try assumption.
  apply H. eapply skipn_adjacent3; exact Es.
Qed.

(** ------------------------------------------------------------------ *)
Lemma stay_any i w : win_ok i w (stay i).
Proof. split; [reflexivity|]. split; [constructor|]. split; [cbn; lia|]. apply wclos_refl. Qed.

Lemma wf_direct z x y : In z direct -> word y -> 0 <= x < 256 -> (In z [oLD; oLDB; oULDB; oLA; oLAC] -> x = 0) -> wf_op (mkOp z x y).
Proof.
  intros Hz Wy Hx H0. unfold word in Wy. cbn [direct In] in *.
  destruct Hz as [<-|[<-|[<-|[<-|[<-|[<-|[<-|[<-|[<-|[]]]]]]]]]];
    (unfold wf_op; cbn [op arg1 arg2]; refine (conj _ (conj _ (conj _ (conj _ _)))); 
     [split; [discriminate|reflexivity]|lia|lia|intros E; first [discriminate E|apply H0; tauto]|intros E; discriminate E]).
Qed.

Lemma get_base_index s lvl off c : word off -> word c ->
  (0 <=? s16 off + c) = sign16 (u16 (off + c)) -> get_base s lvl (s16 off + c) = get_base s lvl (s16 (u16 (off + c))).
Proof.
  intros Wo Wc E. unfold get_base. destruct (follow_links s (Z.to_nat lvl) (fp s)) as [g|]; [|reflexivity]. cbn [bindO]. cbv zeta.
  rewrite E. pose proof (u16_range (off + c)) as Hr. rewrite (s16_sign (u16 (off + c))) by exact Hr.
  rewrite (s16_sign off) by exact Wo. unfold sign16 in *. unfold word in *. f_equal.
  destruct (u16 (off + c) <? 32768) eqn:E1; [replace (0 <=? u16 (off + c)) with true by lia|
    replace (0 <=? u16 (off + c) - 65536) with false by lia]; clear E; unfold u16, FBASE in *; destruct (off <? 32768); lia.
Qed.

Lemma unindexed_unmarked k z : unindexed k = Some z -> ~ In k marks /\ ~ In z marks.
Proof.
  unfold unindexed. intros H.
  repeat match type of H with (if ?px =? ?py then _ else _) = _ =>
    destruct (Z.eqb_spec px py) as [->|_]; [injection H as <-; split; [apply (unmarked_eqb (mkOp py 0 0)); reflexivity|
      match goal with |- ~ In ?c marks => apply (unmarked_eqb (mkOp c 0 0)); reflexivity end]|] end. discriminate.
Qed.
Lemma store_load_unmarked k l : store_load k l = true -> ~ In l marks.
Proof.
  intros H HM. unfold store_load in H. cbn [In marks] in HM. 
  repeat (destruct HM as [<-|HM]; [rewrite ?andb_true_iff, ?orb_true_iff, ?andb_true_iff in H;
    repeat (destruct H as [H|H]); destruct H as [_ H]; repeat (destruct H as [H|H]); discriminate H|]). exact HM.
Qed.

Section Load.
  Variables (i : nat) (a b : opType) (r : list opType).
  Hypothesis Wa : wf_op a. Hypothesis Wb : wf_op b.
  Hypothesis La : live a = true. Hypothesis Lb : live b = true.
  Hypothesis Hbad : ~ load_bad a b.
  Hypothesis Hm : forall o q, r = o :: q -> ~ load_multi_bad a b o.

  Lemma index_rule z : check_push a = true -> unindexed (op b) = Some z ->
    let y := mkOp z (arg1 b) (u16 (arg2 b + arg2 (expand_push a))) in
    wf_op y /\ live y = true /\ refines [a; b] [y].
  Proof.
    intros Ca Hu y. set (c := arg2 (expand_push a)) in *. pose proof (expand_push_range a Wa) as Wc. fold c in Wc.
    pose proof (check_pushes a Wa Ca) as Hc. fold c in Hc.
    pose proof Wb as (B0 & B1 & B2 & B3 & B4).
    assert (Hsign : In (op b) [oLDSX; oLDSXB; oULDSXB; oLASX] -> (0 <=? s16 (arg2 b) + c) = sign16 (u16 (arg2 b + c))).
    { intros Hb. destruct (Bool.bool_dec (0 <=? s16 (arg2 b) + c) (sign16 (u16 (arg2 b + c)))) as [H|H]; [exact H|].
      exfalso. apply Hbad. eapply (lb_sign a b c _ (u16 (arg2 b + c))); [exact Hc|exact Hb|apply signed16_s16|apply word16_iff; reflexivity|exact H]. }
    assert (Hg : In (op b) [oLDSX; oLDSXB; oULDSXB; oLASX] -> forall s, get_base s (arg1 b) (s16 (arg2 b) + c) = get_base s (arg1 b) (s16 (u16 (arg2 b + c)))).
    { intros Hb s. apply get_base_index; [exact B2|exact Wc|apply Hsign; exact Hb]. }
    assert (Ha24 : forall s, u16 (c_spb (cf s) + arg2 b + c) = u16 (c_spb (cf s) + u16 (arg2 b + c))).
    { intros s. rewrite u16_add_r. f_equal. lia. }
    assert (Hd : In z direct /\ (In z [oLD; oLDB; oULDB; oLA; oLAC] -> arg1 b = 0)).
    { unfold unindexed in Hu.
      repeat match type of Hu with (if ?px =? ?py then _ else _) = _ =>
        destruct (Z.eqb_spec px py) as [E|_]; [injection Hu as <-; split; [cbn; tauto|]; 
          intros Hz; first [apply B3; rewrite E; reflexivity|exfalso; cbn in Hz; intuition discriminate]|] end. discriminate. }
    destruct Hd as [Hd H0].
    split; [apply wf_direct; [exact Hd|apply u16_range|exact B1|exact H0]|].
    split. { unfold y, live. cbn [op]. cbn [direct In] in Hd. destruct Hd as [<-|[<-|[<-|[<-|[<-|[<-|[<-|[<-|[<-|[]]]]]]]]]]; reflexivity. }
    apply refines_index; [exact Wa|exact Ca|exact Hd| |].
    - intros s k. fold c. unfold unindexed in Hu.
      destruct b as [zb xb yb]. cbn [op arg1 arg2] in *.
      repeat match type of Hu with (if ?px =? ?py then _ else _) = _ =>
        destruct (Z.eqb_spec px py) as [E|_]; [injection Hu as <-; subst px; unfold y, memval; cbn [op arg1 arg2] |] end; try discriminate.
      + change (index24 s LDX yb c = load24 s LD (u16 (yb + c))). unfold index24, load24. rewrite Ha24. reflexivity.
      + change (index32 s LDSX xb yb c = load32 s LDS xb (u16 (yb + c))). unfold index32, load32. rewrite Hg by (cbn; tauto). reflexivity.
      + change (index24 s LDXB yb c = load24 s LDB (u16 (yb + c))). unfold index24, load24. rewrite Ha24. reflexivity.
      + change (index32 s LDSXB xb yb c = load32 s LDSB xb (u16 (yb + c))). unfold index32, load32. rewrite Hg by (cbn; tauto). reflexivity.
      + change (index24 s ULDXB yb c = load24 s ULDB (u16 (yb + c))). unfold index24, load24. rewrite Ha24. reflexivity.
      + change (index32 s ULDSXB xb yb c = load32 s ULDSB xb (u16 (yb + c))). unfold index32, load32. rewrite Hg by (cbn; tauto). reflexivity.
      + change (index24 s LAX yb c = load24 s LA (u16 (yb + c))). unfold index24, load24. rewrite Ha24. reflexivity.
      + change (index32 s LASX xb yb c = load32 s LAS xb (u16 (yb + c))). unfold index32, load32. rewrite Hg by (cbn; tauto). reflexivity.
    - intros s0 k Hk. fold c. unfold unindexed in Hu. destruct b as [zb xb yb]. cbn [op arg1 arg2] in *.
      repeat match type of Hu with (if ?px =? ?py then _ else _) = _ =>
        destruct (Z.eqb_spec px py) as [E|_]; [subst px; reflexivity|] end. discriminate.
  Qed.

  Lemma load_step_ok : win_ok i [a; b] (load_step i a b r).
  Proof.
    unfold load_step. destruct (one_of [oLD; oLDB; oULDB; oLDS; oLDSB; oULDSB] a) eqn:Eo.
    { destruct (same_op a b) eqn:Es; [|apply stay_any].
      assert (Eb : b = a).
      { unfold same_op in Es. destruct a as [az ax ay], b as [bz bx by_]. cbn [op arg1 arg2] in Es. f_equal; lia. }
      rewrite Eb. split; [reflexivity|]. split; [wfs; apply wf_op8; cbn; tauto|]. split; [cbn; lia|]. cbn [length firstn].
      codes. change (live (mkOp oDUP 0 0)) with true. cbv iota. (apply wclos_refines; [um|]). apply refines_same. right. apply one_of_In in Eo. cbn [In direct] in *. tauto. }
    destruct (check_push a) eqn:Ca; [|apply stay_any]. cbv zeta.
    destruct (unindexed (op b)) as [z|] eqn:Eu.
    { destruct (index_rule z Ca Eu) as (Wy & Ly & R). split; [reflexivity|]. split; [wfs|]. split; [cbn; lia|]. cbn [length firstn].
      destruct (unindexed_unmarked _ _ Eu) as [Nb Nz].
      codes. (apply wclos_refines; [um|]). exact R. }
    destruct r as [|o q]; [apply stay_any|]. destruct (check_load b); [|apply stay_any].
    pose proof (Hm o q eq_refl) as Hn.
    destruct (Z.eqb_spec (op o) oLDXM) as [E|_].
    { exfalso. apply Hn. eapply lb_multi; [apply check_pushes; assumption|rewrite E; cbn; tauto]. }
    destruct (Z.eqb_spec (op o) oLDSXM) as [E|_]; [|apply stay_any].
    exfalso. apply Hn. eapply lb_multi; [apply check_pushes; assumption|rewrite E; cbn; tauto].
  Qed.
End Load.

Theorem load_table t i : Forall wf_op t -> (forall a b, adjacent (visible t) a b -> ~ load_bad a b) ->
  (forall a b o, adjacent3 (visible t) a b o -> ~ load_multi_bad a b o) ->
  table_step load_body t i <> Broken /\
  forall t' nx ch, table_step load_body t i = Next t' nx ch -> preserved t t' /\ Forall wf_op t'.
Proof.
  intros W H H3. apply table_step_ok; [exact W|]. intros r E. unfold load_body in E.
  destruct (skipn i (visible t)) as [|a [|b q]] eqn:Es; try discriminate. injection E as <-.
  pose proof (Forall_skipn _ _ _ _ (visible_wf t W) Es) as Wv.
  pose proof (Forall_skipn _ _ _ _ (visible_live t) Es) as Lv.
  inversion_clear Wv as [|? ? Wa Wv']. inversion_clear Wv' as [|? ? Wb _].
  inversion_clear Lv as [|? ? La Lv']. inversion_clear Lv' as [|? ? Lb _].
  apply (win_rout i [a; b]); [exists q; exact Es|discriminate|]. apply load_step_ok; try assumption.
  - apply H. eapply skipn_adjacent; exact Es.
  - intros o p ->. apply H3. eapply skipn_adjacent3; exact Es.
Qed.

(** ------------------------------------------------------------------ *)
Section Store.
  Variables (i : nat) (a b : opType).
  Hypothesis Wa : wf_op a. Hypothesis Wb : wf_op b.
  Hypothesis La : live a = true. Hypothesis Lb : live b = true.

  Lemma store_load_ok : ~ store_bad a b -> check_store a = true ->
    (arg1 a =? arg1 b) && (arg2 a =? arg2 b) && store_load (op a) (op b) = true ->
    win_ok i [a; b] (Rw i [mkOp oDUP 0 0; set_op b (op a)] [] (S (S i)) 1).
  Proof.
    intros Hbad Ca E. assert (Es : set_op b (op a) = a) by (unfold set_op; destruct a as [az ax ay], b as [bz bx by_]; cbn [op arg1 arg2] in *; f_equal; lia). rewrite Es.
    split; [reflexivity|]. split; [wfs; apply wf_op8; cbn; tauto|]. split; [cbn; lia|]. cbn [length firstn].
    assert (Nb : ~ In (op b) marks) by (apply andb_prop in E as [_ E]; exact (store_load_unmarked _ _ E)).
    codes. change (live (mkOp oDUP 0 0)) with true. cbv iota. (apply wclos_refines; [um|]). intros s R Hsp C _. assert (S0 : start s) by (split; assumption).
    destruct (start_top s S0) as (v0 & v1 & v2 & v3 & T).
    assert (HB : exists g : bool, a = mkOp (if g then oST else oSTS) (arg1 a) (arg2 a) /\ b = mkOp (if g then oLD else oLDS) (arg1 a) (arg2 a)).
    { unfold store_load in E. destruct a as [az ax ay], b as [bz bx bz']. cbn [op arg1 arg2] in *.
      destruct (Z.eqb_spec az oST) as [->|N1].
      { exists true. destruct (Z.eqb_spec bz oLD) as [->|N]; [split; [reflexivity|f_equal; lia]|]. cbn [oST oSTB oSTS oSTSB Z.eqb Pos.eqb andb orb] in E. lia. }
      destruct (Z.eqb_spec az oSTS) as [->|N2].
      { exists false. destruct (Z.eqb_spec bz oLDS) as [->|N]; [split; [reflexivity|f_equal; lia]|]. cbn [oST oSTB oSTS oSTSB Z.eqb Pos.eqb andb orb] in E. lia. }
      exfalso. apply Hbad. apply tb_byte; cbn [op In]; lia. }
    destruct HB as (g & EA & EB). rewrite EA, EB in *. apply (store_load_dup s R Hsp v0 v1 v2 v3 T g). exact C.
  Qed.

  Variables (o : opType) (q : list opType).
  Hypothesis Wo : wf_op o. Hypothesis Lo : live o = true.
  Hypothesis Hbad : ~ storex_bad a b o.

  Lemma storex_ok (byte : bool) v : op o = (if byte then oSTSXB else oSTSX) -> check_push a = true ->
    u16 v = arg2 (expand_push a) ->
    win_ok i [a; b; o] (Rw i [nop; b; mkOp (if byte then oSTSB else oSTS) (arg1 o) (u16 (arg2 o + v))] [] i 1).
  Proof.
    intros Eo Ca Ev. set (c := arg2 (expand_push a)) in *. pose proof (check_pushes a Wa Ca) as Hc. fold c in Hc.
    pose proof Wo as (O0 & O1 & O2 & O3 & O4).
    assert (Er : u16 (arg2 o + v) = u16 (arg2 o + c)) by (rewrite <- Ev, u16_add_r; reflexivity). rewrite Er.
    assert (Ho : In (op o) [oSTSX; oSTSXB]) by (rewrite Eo; destruct byte; cbn; tauto).
    set (n := mkOp (if byte then oSTSB else oSTS) (arg1 o) (u16 (arg2 o + c))).
    assert (Wn : wf_op n). { pose proof (u16_range (arg2 o + c)). unfold n. destruct byte; wfop. }
    assert (Ln : live n = true) by (unfold n; destruct byte; reflexivity).
    assert (EO : o = mkOp (if byte then oSTSXB else oSTSX) (arg1 o) (arg2 o)) by (rewrite <- Eo; destruct o; reflexivity).
    assert (Lb' : loader b).
    { destruct (in_dec Z.eq_dec (op b) [oPUSH; oPUSHB; oUPUSHB; oLD; oLDB; oULDB; oLDS; oLDSB; oULDSB; oLA; oLAS; oLAC]) as [H|H].
      - destruct (check_push b) eqn:Cb; [left; split; assumption|right].
        assert (N : ~ In (op b) [oPUSH; oPUSHB; oUPUSHB]) by (intros H'; apply one_of_In in H'; unfold check_push in Cb; congruence).
        cbn [In direct] in *. intuition congruence.
      - exfalso. apply Hbad. eapply tb_between; eassumption. }
    assert (Nb : ~ In (op b) marks) by (destruct Lb' as [[Lc _]|Lc]; um1).
    assert (Nn : ~ In (op n) marks) by (unfold n; destruct byte; um1).
    assert (Hs : sign16 (arg2 o) = sign16 (u16 (arg2 o + c))).
    { destruct (Bool.bool_dec (sign16 (arg2 o)) (sign16 (u16 (arg2 o + c)))) as [H|H]; [exact H|].
      exfalso. apply Hbad. eapply (tb_sign a b o c (u16 (arg2 o + c))); [exact Hc|exact Ho|apply word16_iff; reflexivity|exact H]. }
    split; [reflexivity|]. split; [wfs|]. split; [cbn; lia|]. cbn [length firstn]. codes.
    (apply wclos_refines; [um|]). intros s R Hsp C _. assert (S0 : start s) by (split; assumption).
    destruct (start_top s S0) as (v0 & v1 & v2 & v3 & T). rewrite EO in *. cbn [arg1 arg2] in *.
    apply (push_storex s R Hsp v0 v1 v2 v3 T a b byte (arg1 o) (arg2 o)); try assumption; [apply u16_range|reflexivity].
  Qed.
End Store.

Lemma store_step_ok i a b r : Forall wf_op (a :: b :: r) -> Forall (fun o => live o = true) (a :: b :: r) ->
  ~ store_bad a b -> (forall o q, r = o :: q -> ~ storex_bad a b o) ->
  (match r with [] => win_ok i [a; b] | o :: _ => win_ok i [a; b; o] end) (store_step i a b r).
Proof.
  intros W L Hb Hx. inversion_clear W as [|? ? Wa W']. inversion_clear W' as [|? ? Wb Wr].
  inversion_clear L as [|? ? La L']. inversion_clear L' as [|? ? Lb Lr]. unfold store_step.
  assert (Two : forall R, win_ok i [a; b] R -> (match r with [] => win_ok i [a; b] | o :: _ => win_ok i [a; b; o] end) R).
  { intros R H. destruct r as [|o q]; [exact H|]. destruct R as [|at_ put os nx ch]; [exact H|]. destruct H as (A & B & C & D).
    split; [exact A|]. split; [exact B|]. split; [cbn in *; lia|]. 
    replace (firstn (length put) [a; b; o]) with (firstn (length put) [a; b]); [exact D|].
    clear - C. destruct put as [|? [|? [|? ?]]]; try reflexivity. cbn in C. lia. }
  destruct (check_store a) eqn:Cs.
  { apply Two. destruct ((arg1 a =? arg1 b) && (arg2 a =? arg2 b) && store_load (op a) (op b)) eqn:E; [|apply stay_any].
    apply store_load_ok; assumption. }
  destruct (Z.eqb_spec (op a) oPUSH) as [Ea|Na].
  { destruct r as [|o q]; [apply stay_any|]. inversion_clear Wr as [|? ? Wo _]. inversion_clear Lr as [|? ? Lo _].
    assert (Ca : check_push a = true) by (unfold check_push; apply one_of_In; rewrite Ea; cbn; tauto).
    assert (Ev : u16 (arg2 a) = arg2 (expand_push a)).
    { unfold expand_push. rewrite Ea. cbn. apply u16_small. apply Wa. }
    destruct (Z.eqb_spec (op o) oSTSX) as [Eo|_].
    { apply (storex_ok i a b Wa Wb Lb o Wo Lo (Hx o q eq_refl) false (arg2 a) Eo Ca Ev). }
    destruct (Z.eqb_spec (op o) oSTSXB) as [Eo|_]; [|apply stay_any].
    apply (storex_ok i a b Wa Wb Lb o Wo Lo (Hx o q eq_refl) true (arg2 a) Eo Ca Ev). }
  destruct ((op a =? oPUSHB) || (op a =? oUPUSHB)) eqn:Ep; [|apply Two, stay_any].
  destruct r as [|o q]; [apply stay_any|]. inversion_clear Wr as [|? ? Wo _]. inversion_clear Lr as [|? ? Lo _].
  destruct (Z.eqb_spec (op o) oSTSXB) as [Eo|_]; [|apply stay_any].
  assert (Ca : check_push a = true) by (unfold check_push; apply one_of_In; cbn [In]; lia).
  apply (storex_ok i a b Wa Wb Lb o Wo Lo (Hx o q eq_refl) true _ Eo Ca).
  unfold expand_push. destruct (op a =? oPUSHB) eqn:E1; [reflexivity|]. destruct (op a =? oUPUSHB) eqn:E2; [|lia].
  cbn [arg2]. apply u16_small. destruct Wa as (_ & Wa1 & _). lia.
Qed.

Theorem store_table t i : Forall wf_op t -> (forall a b, adjacent (visible t) a b -> ~ store_bad a b) ->
  (forall a b o, adjacent3 (visible t) a b o -> ~ storex_bad a b o) ->
  table_step store_body t i <> Broken /\
  forall t' nx ch, table_step store_body t i = Next t' nx ch -> preserved t t' /\ Forall wf_op t'.
Proof.
  intros W H H3. apply table_step_ok; [exact W|]. intros r E. unfold store_body in E.
  destruct (skipn i (visible t)) as [|a [|b q]] eqn:Es; try discriminate. injection E as <-.
  pose proof (Forall_skipn _ _ _ _ (visible_wf t W) Es) as Wv.
  pose proof (Forall_skipn _ _ _ _ (visible_live t) Es) as Lv.
  assert (Hok := store_step_ok i a b q Wv Lv).
  destruct q as [|o q].
  - apply (win_rout i [a; b]); [exists []; exact Es|discriminate|]. apply Hok; [|discriminate].
    apply H. eapply skipn_adjacent; exact Es.
  - apply (win_rout i [a; b; o]); [exists q; exact Es|discriminate|]. apply Hok.
    + apply H. eapply skipn_adjacent; exact Es.
    + intros o' q' E. injection E as -> ->. apply H3. eapply skipn_adjacent3; exact Es.
Qed.
