(** Blocks whose statements contain calls.  After BlockProofs.v. *)

From Coq Require Import ZArith Bool List Lia ZifyBool.
From Verif Require Import Words WordLemmas State StateLemmas Opcodes EncodeModel SetModel LongModel Machine VmSpec VmProofs MemProofs MultiProofs CallProofs
  OptSpec OptUnaryStep ExprModel ExprSpec ExprRun ExprOps ExprLoad ExprProofs ExprMain StmtModel StmtSpec StmtPlain StmtRun StmtStore StmtStep
  StmtMain ActModel ActSpec ActProofs ActRun BlockModel BlockSpec BlockProofs RecModel RecSpec RecMain RecSound.
From Verif Require Import StmtSpec StmtRun StmtMain.
Import ListNotations.
Open Scope Z_scope.

(** What the code of a block does *)
Definition pblock_sim (decls : list decl) (k : Z) (xs : list var) (dstack : Z) (ini : list (var * Z)) (ts : list tok) (ss : pstmts) (main : list opType) : Prop :=
  forall K N, 0 <= N -> forall adr links base s0, placed k xs adr links base s0 -> c_ssz (cf s0) mod 2 = 0 ->
  forall prog, able decls k xs K N adr links base s0 prog -> forall i, stands prog i main -> forall s r r1 r',
  same_regs s0 s -> (forall j, links j -> rd s j = rd s0 j) -> base <= (sp s + whole dstack) / 2 -> holding xs adr s r ->
  roomy s (room_for dstack ts + N) -> started ini r r1 -> pmeans_seq decls K ss r1 Normal r' ->
  exists s', goes prog (i, s) ((i + length main)%nat, s') /\ effect xs adr s s' 0 r'.

Section Blocks.
  Variables (procs : tok -> proc) (decls : list decl).
  Hypothesis Formals : forall q d, nth_error decls q = Some d -> Forall2 described (pFormals (d_proc d)) (d_parms d).
  Hypothesis Levels : forall q d, nth_error decls q = Some d -> 0 <= pLevel (d_proc d) < 255.
  Hypothesis Labels : forall q d, nth_error decls q = Some d -> 0 <= pLabel (d_proc d) < 65536.
  Hypothesis Slots : forall q d, nth_error decls q = Some d -> slots (d_parms d) <= 32768.

  Theorem pblock_ok k xs dstack inits ini ts ss : pblock_text procs decls k xs dstack inits ini ts ss ->
    forall label, 0 <= label <= 65535 -> forall inner rest O E l C B, 0 <= l -> l + 2 * Z.of_nat (length ts) <= 65535 ->
    exists main l' N, l <= l' <= l + 2 * Z.of_nat (length ts) /\ hd_error main = Some (mkOp oLABEL 0 label) /\
      (forall n, (N <= n)%nat ->
        pblock procs n label dstack inner inits (mkComp (ts ++ rest) O E l k C B 0) =
        SDone (mkComp rest (O ++ nested_code k label inner ++ main) E l' k C B 0)) /\
      pblock_sim decls k xs dstack ini ts ss main.
  Proof.
    intros [Gb Wf Vs Ln Sh In1 On Iv Ds] label Hlab inner rest O E l C B Hl Hl2.
    destruct Gb as [a us ss b Ta Gs Tb].
    destruct (all_psound procs decls k xs Formals Levels Labels Slots) as (_ & Snd & _). specialize (Snd us ss Gs false false Wf).
    assert (Ln' : Forall line_ok us /\ line_ok b).
    { unfold line_ok. apply Forall_inv_tail in Ln. apply Forall_app in Ln. destruct Ln as (L1 & L2). split; [exact L1|]. inversion L2; assumption. }
    destruct Ln' as (Ln1 & Ln2).
    assert (Len : length (a :: us ++ [b]) = S (S (length us))) by (cbn [length]; rewrite app_length; cbn [length]; lia).
    rewrite Len in *.
    destruct (c_initialization k inits ini In1 ltac:(intros x Hx; apply (Iv x Hx))) as (l1 & l2 & I1 & I2 & I3).
    assert (St1 : Forall (settable k xs) l1 /\ Forall (settable k xs) l2).
    { assert (X : forall xz, In xz ini -> settable k xs xz).
      { intros [x z] Hx. assert (G : exists i, gives i x z).
        { clear - In1 Hx. induction In1 as [|i y inits ini G F IH]; [destruct Hx|]. destruct Hx as [->|Hx]; [exists i; exact G|apply IH, Hx]. }
        destruct G as (i & G). apply (gives_settable k i x z xs G). apply (Iv x). apply (in_map fst) in Hx. exact Hx. }
      split; apply Forall_forall; intros y Hy; apply X, I1; auto. }
    destruct St1 as (F1 & F2).
    set (d := whole dstack) in *.
    set (O1 := (((O ++ nested_code k label inner) ++ [mkOp oLABEL 0 label]) ++ (moved dstack d)) ++
      flat_map (store_value k) l1 ++ flat_map (store_value k) l2).
    destruct (Snd ltac:(exact Vs) Ln1 (b :: rest) ltac:(cbn [hd In]; rewrite Tb; tauto) Ln2 a O1 E l C B 0) as (ps & l' & N & Hl' & Hc & Hs);
      [lia|lia|discriminate|discriminate|lia|lia|].
    assert (Hd : 0 <= d <= 32766 /\ d mod 2 = 0) by (subst d; unfold whole; lia).
    exists (mkOp oLABEL 0 label :: (moved dstack d) ++ flat_map (store_value k) l1 ++ flat_map (store_value k) l2 ++
      ps ++ (moved dstack (- d))), l', N.
    split; [lia|]. split; [reflexivity|]. split.
    - intros n Hn. unfold pblock. rewrite c_nested by exact Hlab. rewrite whole_eq. fold d.
      rewrite c_token. cbn [hd app]. rewrite Ta, Z.eqb_refl. cbn [negb error_if]. rewrite c_label by exact Hlab.
      unfold initialization, pcompound. unfold moved in *.
      destruct (dstack =? 0) eqn:Dz.
      + rewrite I2, I3. cbn [binds]. rewrite <- (app_assoc us). cbn [app].
        match goal with |- context [mkComp (a :: _) ?o _ _ _ _ _ _] => replace o with O1 by (unfold O1; rewrite app_nil_r, <- !app_assoc; reflexivity) end.
        rewrite Hc by exact Hn. cbn [binds]. rewrite c_expect by exact Tb. unfold O1. rewrite !app_nil_r, <- !app_assoc. reflexivity.
      + rewrite c_inds by lia. rewrite I2, I3. cbn [binds]. rewrite <- (app_assoc us). cbn [app].
        match goal with |- context [mkComp (a :: _) ?o _ _ _ _ _ _] => replace o with O1 by (unfold O1; rewrite <- !app_assoc; reflexivity) end.
        rewrite Hc by exact Hn. cbn [binds].
        rewrite c_expect by exact Tb. rewrite c_inds by lia. unfold O1. rewrite <- !app_assoc. reflexivity.
    - intros Kc Nw Nw0 adr links base s0 P Ev prog Ab i St s r r1 r' Rg Lk Bs Hd1 Rm Sta Me.
      assert (Ci : c_ssz (cf s) = c_ssz (cf s0)) by (destruct Rg as (-> & _); reflexivity).
      pose proof (assigned_started l1 l2 ini r r1 On I1 Sta) as Ext.
      apply stands_cons in St. destruct St as (St0 & St).
      apply stands_app in St. destruct St as (St1 & St). apply stands_app in St. destruct St as (St2 & St).
      apply stands_app in St. destruct St as (St3 & St). apply stands_app in St. destruct St as (St4 & St5).
      destruct Rm as ((Rm1 & Rm2 & Rm3 & Rm4) & Rm5). unfold room_for in Rm2. fold d in Rm2. rewrite Len in Rm2.
      assert (X1 : exists s1, runs prog (S i, s) ((S i + length (moved dstack d))%nat, s1) /\
        same_regs s s1 /\ sp s1 = sp s + d /\ forall j, rd s1 j = rd s j).
      { unfold moved in *. destruct (dstack =? 0) eqn:Dz.
        - exists s. cbn [length]. rewrite Nat.add_0_r. split; [apply runs_refl|]. split; [apply same_regs_refl|].
          split; [unfold d, whole; replace dstack with 0 by lia; cbn; lia|reflexivity].
        - apply stands_cons in St1. destruct St1 as (St1 & _). cbn [length]. rewrite Nat.add_1_r.
          apply (run_inds prog (S i) d s St1); lia. }
      destruct X1 as (s1 & E1 & G1 & S1 & M1).
      assert (Rd1 : ready xs adr links base s0 s1 r).
      { split; [apply (same_regs_trans _ _ _ Rg G1)|]. split; [intros j Hj; rewrite M1; apply Lk, Hj|]. split; [rewrite S1; exact Bs|].
        apply (held k xs adr links base s0 P Ev s s1 r Rg G1); auto. }
      assert (Cz : forall t, same_regs s0 t -> c_ssz (cf t) = c_ssz (cf s)) by (intros t (Y & _); rewrite Y; congruence).
      assert (Rm' : forall t, same_regs s0 t -> sp t = sp s + d -> roomy t (2 * Z.of_nat (length us) + 2 + Nw)).
      { intros t Y Z1. unfold roomy, room. rewrite Z1, (Cz t Y). lia. }
      destruct (run_values k xs adr links base s0 P Ev prog l1 _ s1 r St2 F1 Rd1) as (s2 & E2 & M2).
      { apply (room_mono _ _ _ (roomy_room _ _ (Rm' s1 (proj1 Rd1) S1))). lia. }
      pose proof (moves_ready k xs adr links base s0 P _ _ _ _ _ Rd1 M2) as Rd2.
      assert (S2 : sp s2 = sp s + d) by (destruct M2 as (_ & Y & _); cbn [length] in Y; lia).
      destruct (run_values k xs adr links base s0 P Ev prog l2 _ s2 _ St3 F2 Rd2) as (s3 & E3 & M3).
      { apply (room_mono _ _ _ (roomy_room _ _ (Rm' s2 (proj1 Rd2) S2))). lia. }
      pose proof (moves_ready k xs adr links base s0 P _ _ _ _ _ Rd2 M3) as Rd3.
      assert (S3 : sp s3 = sp s + d) by (destruct M3 as (_ & Y & _); cbn [length] in Y; lia).
      pose proof (moves_again k xs adr links base s0 P s1 s2 [] r _ _ s3 Rd1 M2 M3) as M13.
      assert (Rd3' : ready xs adr links base s0 s3 r1).
      { destruct Rd3 as (Y1 & Y2 & Y3 & Y4). split; [exact Y1|]. split; [exact Y2|]. split; [exact Y3|]. apply (means_ext_holding _ _ _ _ _ Y4 Ext). }
      destruct (Hs Kc Nw Nw0 adr links base s0 P Ev prog Ab _ St4 s3 r1 Normal r' Rd3') as (s4 & E4 & M4).
      { rewrite S3, Z.add_0_r. exact Bs. }
      { apply (roomy_mono _ _ _ (Rm' s3 (proj1 Rd3) S3)). lia. }
      { exact Me. }
      pose proof (moves_ready k xs adr links base s0 P _ _ _ _ _ Rd3' M4) as Rd4.
      pose proof (moves_again k xs adr links base s0 P s1 s3 [] r _ _ s4 Rd1 M13 M4) as M14.
      assert (S4 : sp s4 = sp s + d) by (destruct M4 as (_ & Y & _); cbn [length] in Y; lia).
      assert (X5 : exists s5, runs prog ((S i + length (moved dstack d) + length (flat_map (store_value k) l1)
          + length (flat_map (store_value k) l2) + length ps)%nat, s4) ((S i + length (moved dstack d) + length (flat_map (store_value k) l1)
          + length (flat_map (store_value k) l2) + length ps + length (moved dstack (- d)))%nat, s5) /\
        same_regs s4 s5 /\ sp s5 = sp s /\ forall j, rd s5 j = rd s4 j).
      { unfold moved in *. destruct (dstack =? 0) eqn:Dz.
        - exists s4. cbn [length]. rewrite !Nat.add_0_r. split; [apply runs_refl|]. split; [apply same_regs_refl|].
          split; [rewrite S4; unfold d, whole; replace dstack with 0 by lia; cbn; lia|reflexivity].
        - apply stands_cons in St5. destruct St5 as (St5 & _). cbn [length] in *. rewrite (Nat.add_1_r (_ + length ps)).
          destruct (run_inds prog _ (- d) s4 St5) as (s5 & Y1 & Y2 & Y3 & Y4); try lia.
          { rewrite (Cz s4 (proj1 Rd4)). lia. }
          { rewrite (Cz s4 (proj1 Rd4)). lia. }
          exists s5. split; [exact Y1|]. split; [exact Y2|]. split; [lia|exact Y4]. }
      destruct X5 as (s5 & E5 & G5 & S5 & M5).
      destruct M14 as (T1 & T2 & T3 & T4 & T5).
      exists s5. split; [|split; [|split; [|split]]].
      + apply (goes_trans _ _ _ _ (go_pseudo _ _ s _ St0 eq_refl)). apply (goes_trans _ _ _ _ (goes_runs _ _ _ E1)). apply (goes_trans _ _ _ _ (goes_runs _ _ _ E2)).
        apply (goes_trans _ _ _ _ (goes_runs _ _ _ E3)). apply (goes_trans _ _ _ _ E4).
        match type of E5 with runs _ _ (?q, _) => replace (i + _)%nat with q; [exact (goes_runs _ _ _ E5)|] end.
        cbn [length]. rewrite !app_length. lia.
      + apply (same_regs_trans _ _ _ G1). apply (same_regs_trans _ _ _ T1 G5).
      + lia.
      + apply (held k xs adr links base s0 P Ev s4 s5 r'); auto. apply (proj1 Rd4).
      + intros j Hj Nj. rewrite M5, T4, M1; auto. rewrite S1. rewrite S5 in Hj.
        assert (sp s / 2 <= (sp s + d) / 2) by (apply Z.div_le_mono; lia). lia.
  Qed.

  (** ** Procedures and programs *)

  Lemma proutine_ok k xs dstack inits ini bts ss : pblock_text procs decls k xs dstack inits ini bts ss ->
    forall c b rest plabel label inner, toks c = bts ++ b :: rest -> tk b = tSEMICOLON -> g_level c = k -> g_adjust c = 0 ->
    0 <= g_label c -> g_label c + 2 * Z.of_nat (length bts) <= 65535 -> 0 <= plabel <= 65535 -> 0 <= label <= 65535 ->
    exists c' main N,
      (forall n, (N <= n)%nat -> proutine procs n plabel label dstack inner inits c = SDone c') /\
      toks c' = rest /\ errs c' = errs c /\ g_level c' = k - 1 /\
      out c' = out c ++ mkOp oLABEL 0 plabel :: nested_code k label inner ++ main ++ [mkOp oRET 0 0] /\
      hd_error main = Some (mkOp oLABEL 0 label) /\ pblock_sim decls k xs dstack ini bts ss main.
  Proof.
    intros Bt [T O E l L C B A] b rest plabel label inner. cbn [toks out errs g_label g_level g_continue g_break g_adjust].
    intros -> Tb -> -> H1 H2 Hp Hl.
    destruct (pblock_ok k xs dstack inits ini bts ss Bt label Hl inner (b :: rest) (O ++ [mkOp oLABEL 0 plabel]) E l C B H1 H2) as (main & l' & N & Hl' & Hd & Hc & Hs).
    exists (mkComp rest (O ++ mkOp oLABEL 0 plabel :: nested_code k label inner ++ main ++ [mkOp oRET 0 0]) E l' (k - 1) C B 0), main, N.
    split; [|cbn [toks out errs g_label g_level]; auto 10].
    intros n Hn. unfold proutine. rewrite c_label by lia. rewrite Hc by exact Hn. cbn [binds].
    rewrite c_simple by reflexivity. unfold with_level. cbn [toks out errs g_label g_level g_continue g_break g_adjust].
    rewrite c_expect by exact Tb. rewrite <- !app_assoc. reflexivity.
  Qed.

  Lemma pprogram_ok xs dstack inits ini ts ss : pblock_text procs decls 0 xs dstack inits ini ts ss ->
    forall c b rest label inner, toks c = ts ++ b :: rest -> tk b = tPERIOD -> g_level c = 0 -> g_adjust c = 0 ->
    0 <= g_label c -> g_label c + 2 * Z.of_nat (length ts) <= 65535 -> 0 <= label <= 65535 ->
    exists c' main N,
      (forall n, (N <= n)%nat -> pprogram procs n label dstack inner inits c = SDone c') /\
      errs c' = errs c /\
      out c' = out c ++ match inner with Some code => code | None => [] end ++ main ++ [mkOp oEND 0 0] /\
      hd_error main = Some (mkOp oLABEL 0 label) /\ pblock_sim decls 0 xs dstack ini ts ss main.
  Proof.
    intros Bt [T O E l L C B A] b rest label inner. cbn [toks out errs g_label g_level g_continue g_break g_adjust].
    intros -> Tb -> -> H1 H2 Hl.
    destruct (pblock_ok 0 xs dstack inits ini ts ss Bt label Hl inner (b :: rest) O E l C B H1 H2) as (main & l' & N & Hl' & Hd & Hc & Hs).
    exists (mkComp (b :: rest) (O ++ match inner with Some code => code | None => [] end ++ main ++ [mkOp oEND 0 0]) E l' 0 C B 0), main, N.
    split; [|split; [reflexivity|split; [reflexivity|split; [exact Hd|exact Hs]]]].
    intros n Hn. unfold pprogram. rewrite Hc by exact Hn. cbn [binds]. unfold error_if.
    match goal with |- context [token ?q =? tPERIOD] => replace (token q =? tPERIOD) with true by (unfold token; cbn; rewrite Tb; reflexivity) end.
    cbn [negb]. rewrite c_simple by reflexivity. rewrite <- !app_assoc.
    replace (nested_code 0 label inner) with (match inner with Some code => code | None => [] end)
      by (unfold nested_code; destruct inner; [destruct (0 <? label); reflexivity|reflexivity]). reflexivity.
  Qed.
End Blocks.
