(** The frames of the surrounding blocks, and calls to any depth. *)

From Coq Require Import ZArith Bool List Lia ZifyBool.
From Verif Require Import Words WordLemmas State StateLemmas Opcodes EncodeModel SetModel LongModel Machine VmSpec VmProofs MemProofs MultiProofs CallProofs
  OptSpec OptUnaryStep ExprModel ExprSpec ExprRun ExprOps ExprLoad ExprProofs ExprMain StmtModel StmtSpec StmtPlain StmtRun StmtStore StmtStep
  StmtMain ActModel ActSpec ActProofs ActRun BlockModel BlockSpec BlockProofs BlockFrame BlockCall RecModel RecSpec RecMain RecSound RecBlock RecCall.
From Verif Require Import StmtSpec StmtRun StmtMain.
Import ListNotations.
Open Scope Z_scope.

Lemma address_ext j s s' x a : cf s' = cf s -> fp s' = fp s -> (forall i, rd s' i = rd s i) -> var_address j s x a -> var_address j s' x a.
Proof.
  intros C F R. unfold var_address. destruct (vlev x =? 0); [unfold global_ea; rewrite C; auto|].
  intros (g & z & H1 & H2 & H3). exists g, z. rewrite F. split; [apply (reaches_ext s s' _ _ _ R H1)|]. auto.
Qed.

(** [hs j] is the frame at level [j]. *)
Record frames (lev : Z) (xs : list var) (adr : var -> Z) (links : Z -> Prop) (s0 : st) (hs : Z -> Z) : Prop :=
  { fc_lev : 0 <= lev <= 255;
    fc_regs : 0 <= fp s0 < 65536 /\ 0 <= csp s0 < 65536 /\ 0 <= lsp s0 < 256;
    fc_top : hs lev = fp s0;
    fc_level : forall s, cf s = cf s0 -> (forall i, links i -> rd s i = rd s0 i) -> forall j, 0 <= j <= lev -> frame_level s (hs j) j;
    fc_link : forall s, cf s = cf s0 -> (forall i, links i -> rd s i = rd s0 i) -> forall j, 0 < j <= lev -> slink s (hs j) (hs (j - 1));
    fc_addr : forall s, cf s = cf s0 -> (forall i, links i -> rd s i = rd s0 i) -> forall j x, 0 <= j <= lev -> fp s = hs j ->
      In x xs -> vlev x <= j -> var_address j s x (adr x);
    fc_apart : forall x y i, In x xs -> In y xs -> vlev x <> vlev y -> within adr x i -> ~ within adr y i }.

Section Chain.
  Variables (s : st) (lev : Z) (hs : Z -> Z).
  Hypothesis Fl : forall j, 0 <= j <= lev -> frame_level s (hs j) j.
  Hypothesis Sl : forall j, 0 < j <= lev -> slink s (hs j) (hs (j - 1)).

  Lemma chain_at : forall j : nat, Z.of_nat j <= lev -> static_chain s (hs (Z.of_nat j)) (Z.of_nat j).
  Proof.
    induction j as [|j IH]; intros H.
    - apply chain_main. apply (Fl 0). lia.
    - apply (chain_nested s _ _ (hs (Z.of_nat j)) (Z.of_nat j)); [apply Fl; lia|lia| |lia|apply IH; lia].
      replace (hs (Z.of_nat j)) with (hs (Z.of_nat (S j) - 1)) by (f_equal; lia). apply Sl. lia.
  Qed.
  Lemma reach_at : forall m : nat, Z.of_nat m <= lev -> reaches s (hs lev) m (hs (lev - Z.of_nat m)).
  Proof.
    induction m as [|m IH]; intros H.
    - replace (lev - Z.of_nat 0) with lev by lia. constructor.
    - replace (S m) with (m + 1)%nat by lia. eapply reaches_app; [apply IH; lia|]. econstructor; [|constructor].
      replace (lev - Z.of_nat (m + 1)) with (lev - Z.of_nat m - 1) by lia. apply Sl. lia.
  Qed.
End Chain.

Section Frames.
  Variables (lev : Z) (xs : list var) (adr : var -> Z) (links : Z -> Prop) (base : Z) (s0 : st) (hs : Z -> Z).
  Hypothesis P : placed lev xs adr links base s0.
  Hypothesis Fr : frames lev xs adr links s0 hs.
  Variables (s : st) (r : env).
  Hypothesis Rd : ready xs adr links base s0 s r.

  Lemma links_kept s' : (forall i, i <= sp s / 2 -> rd s' i = rd s i) -> forall i, links i -> rd s' i = rd s0 i.
  Proof.
    intros H i L. destruct Rd as (_ & R2 & R3 & _). destruct (pl_links _ _ _ _ _ _ P i L) as (L1 & _). rewrite H by lia. apply R2, L.
  Qed.

  Lemma frames_surrounded n : 0 <= n <= lev -> surrounded s n (hs n).
  Proof.
    intros N s' R K. pose proof (links_kept s' K) as L. destruct Rd as (G & _).
    pose proof (same_regs_trans _ _ _ G R) as (C & _ & F & _).
    pose proof (fc_level _ _ _ _ _ _ Fr s' C L) as Fl. pose proof (fc_link _ _ _ _ _ _ Fr s' C L) as Sl. pose proof (fc_top _ _ _ _ _ _ Fr) as T.
    split.
    - exists lev. rewrite F, <- T. replace lev with (Z.of_nat (Z.to_nat lev)) by lia. apply (chain_at s' lev hs Fl Sl). lia.
    - exists (Z.to_nat (lev - n)). rewrite F, <- T. split; [|split; [apply Fl, N|]].
      + replace (hs n) with (hs (lev - Z.of_nat (Z.to_nat (lev - n)))) by (f_equal; lia). apply (reach_at s' lev hs Fl Sl). lia.
      + intros j g J H. pose proof (reach_at s' lev hs Fl Sl j ltac:(lia)) as H'. assert (g = hs (lev - Z.of_nat j)) by (eapply reaches_fun; eauto). subst g.
        exists (lev - Z.of_nat j). split; [apply Fl|]; lia.
  Qed.

  Lemma frames_placed n os : 0 <= n <= lev -> (forall x, In x os -> In x xs /\ vlev x <= n) -> placed n os adr links base (with_fp s (hs n)).
  Proof.
    intros N Os. destruct P as [P1 P2 P3 P4 P5]. constructor.
    - exact P1.
    - intros s' (C & _ & F & _) K x Hx. destruct (Os x Hx) as (Hx1 & Hx2). cbn [cf fp with_fp] in C, F. destruct Rd as ((C0 & _) & R2 & _).
      apply (fc_addr _ _ _ _ _ _ Fr); auto; [congruence|]. intros i L. rewrite (K i L). apply R2, L.
    - intros i L. destruct (P3 i L) as (L1 & L2). split; [exact L1|]. intros x Hx. apply L2, (Os x Hx).
    - intros x Hx. apply P4, (Os x Hx).
    - intros x y Hx Hy. apply P5; [apply (Os x Hx)|apply (Os y Hy)].
  Qed.

  (** The frame of a procedure that was called *)
  Lemma frames_called n os fs ls total dstack s2 : 0 <= n <= lev -> n < 255 -> (forall x, In x os -> In x xs /\ vlev x <= n) ->
    front (n + 1) total fs -> locals (n + 1) dstack ls -> 0 <= total -> total mod 2 = 0 -> sp s mod 2 = 0 ->
    cf s2 = cf s -> (forall i, i <= sp s / 2 -> rd s2 i = rd s i) -> slink s2 (fp s2) (hs n) -> frame_level s2 (fp s2) (n + 1) ->
    fp s2 = sp s + 2 + total -> 0 <= fp s2 < 65536 -> 0 <= csp s2 < 65536 -> 0 <= lsp s2 < 256 ->
    placed (n + 1) (xs_all os fs ls) (frame_adr (n + 1) (fp s2) adr) (links_all links s2) ((sp s2 + whole dstack) / 2) s2 ->
    frames (n + 1) (xs_all os fs ls) (frame_adr (n + 1) (fp s2) adr) (links_all links s2) s2 (fun j => if j =? n + 1 then fp s2 else hs j).
  Proof.
    intros N N2 Os Fs Ls T0 Te Se C K Sl Fl Ff F1 F2 F3 Pc. pose proof (links_kept s2 K) as L2.
    pose proof Rd as ((C0 & _) & _ & Rb & _).
    assert (Out : forall s', cf s' = cf s2 -> (forall i, links_all links s2 i -> rd s' i = rd s2 i) -> cf s' = cf s0 /\ forall i, links i -> rd s' i = rd s0 i).
    { intros s' C' K'. split; [congruence|]. intros i L. rewrite (K' i (or_introl L)). apply L2, L. }
    assert (Top : forall x, In x (xs_all os fs ls) -> vlev x <= n + 1 /\ (vlev x <= n -> In x os)).
    { intros x Hx. unfold xs_all in Hx. rewrite !in_app_iff in Hx. destruct Hx as [Hx|[Hx|Hx]].
      - destruct (Os x Hx). split; [lia|auto].
      - destruct (fr_at _ _ _ Fs x Hx). split; lia.
      - destruct (lo_at _ _ _ Ls x Hx). split; lia. }
    constructor.
    - lia.
    - auto.
    - rewrite Z.eqb_refl. reflexivity.
    - intros s' C' K' j J. destruct (Out s' C' K') as (D1 & D2). destruct (j =? n + 1) eqn:E.
      + replace j with (n + 1) by lia. destruct Fl as (w & k & W1 & W2). exists w, k. split; [|exact W2]. rewrite K'; [exact W1|]. right. lia.
      + apply (fc_level _ _ _ _ _ _ Fr s' D1 D2). lia.
    - intros s' C' K' j J. destruct (Out s' C' K') as (D1 & D2). replace (j - 1 =? n + 1) with false by lia. destruct (j =? n + 1) eqn:E.
      + replace (j - 1) with n by lia. unfold slink in *. rewrite K'; [exact Sl|]. right. lia.
      + apply (fc_link _ _ _ _ _ _ Fr s' D1 D2). lia.
    - intros s' C' K' j x J Fj Hx Vj. destruct (Out s' C' K') as (D1 & D2). destruct (j =? n + 1) eqn:E.
      + replace j with (n + 1) by lia.
        set (s3 := with_csp (with_lsp (mkSt (mem s') (cf s') (sp s') (csp s') (fp s') (pc s') (lsp s') (fch s2)) (lsp s2)) (csp s2)).
        apply (address_ext (n + 1) s3 s' x _ eq_refl eq_refl); [reflexivity|].
        apply (pl_addr _ _ _ _ _ _ Pc); [|exact K'|exact Hx]. unfold same_regs, s3. cbn. auto.
      + assert (Ho : In x os) by (apply (Top x Hx); lia). destruct (Os x Ho) as (Hx1 & Hx2).
        unfold frame_adr. replace (vlev x =? n + 1) with false by lia. apply (fc_addr _ _ _ _ _ _ Fr s' D1 D2); auto. lia.
    - assert (Near : forall x, In x os -> forall i, within (frame_adr (n + 1) (fp s2) adr) x i -> within adr x i /\ i <= sp s / 2).
      { intros x Hx i W. destruct (Os x Hx) as (H1 & H2). unfold within, frame_adr in *. replace (vlev x =? n + 1) with false in W by lia.
        split; [exact W|]. destruct (pl_vars _ _ _ _ _ _ P x H1) as (_ & B & _). lia. }
      assert (Far : forall x, In x (xs_all os fs ls) -> vlev x = n + 1 -> forall i, within (frame_adr (n + 1) (fp s2) adr) x i -> sp s / 2 < i).
      { intros x Hx V i W. unfold within, frame_adr in W. replace (vlev x =? n + 1) with true in W by lia. unfold xs_all in Hx. rewrite !in_app_iff in Hx.
        destruct Hx as [Hx|[Hx|Hx]].
        - destruct (Os x Hx). lia.
        - destruct (fr_at _ _ _ Fs x Hx) as (A1 & A2 & A3 & A4). pose proof (sizes_small (vty x)). replace (voff x <? 0) with true in W by lia. lia.
        - destruct (lo_at _ _ _ Ls x Hx) as (A1 & A2 & A3 & A4).
          replace (voff x <? 0) with false in W by lia. lia. }
      intros x y i Hx Hy V Wx Wy. destruct (Top x Hx) as (Tx1 & Tx2), (Top y Hy) as (Ty1 & Ty2).
      destruct (Z.eq_dec (vlev x) (n + 1)) as [Ex|Ex]; [|destruct (Z.eq_dec (vlev y) (n + 1)) as [Ey|Ey]].
      + pose proof (Far x Hx Ex i Wx). destruct (Near y (Ty2 ltac:(lia)) i Wy). lia.
      + pose proof (Far y Hy Ey i Wy). destruct (Near x (Tx2 ltac:(lia)) i Wx). lia.
      + destruct (Near x (Tx2 ltac:(lia)) i Wx) as (W1 & _), (Near y (Ty2 ltac:(lia)) i Wy) as (W2 & _).
        apply (fc_apart _ _ _ _ _ _ Fr x y i (proj1 (Os x (Tx2 ltac:(lia)))) (proj1 (Os y (Ty2 ltac:(lia)))) V W1 W2).
  Qed.
End Frames.

(** ** Calls to any depth *)

Section Depth.
  Variables (procs : tok -> proc) (decls : list decl) (prog : list opType) (D : Z).
  Hypothesis Dc : forall q d, nth_error decls q = Some d -> declared procs decls d.
  Hypothesis Need : forall q d, nth_error decls q = Some d -> d_need d <= D.
  Hypothesis Loaded : forall q d, nth_error decls q = Some d -> exists j label inner main,
    stands prog j (mkOp oLABEL 0 (pLabel (d_proc d)) :: nested_code (d_level d) label inner ++ main ++ [mkOp oRET 0 0]) /\
    hd_error main = Some (mkOp oLABEL 0 label) /\ 0 < label /\
    pblock_sim decls (d_level d) (d_vars d) (d_dstack d) (d_ini d) (d_toks d) (d_body d) main.

  Lemma need_pos d : 0 <= d_dstack d -> 0 <= d_need d.
  Proof. intros H. unfold d_need, whole. lia. Qed.

  Theorem able_calls : forall n lev xs adr links base s0 hs, placed lev xs adr links base s0 -> c_ssz (cf s0) mod 2 = 0 -> frames lev xs adr links s0 hs ->
    able decls lev xs (calling decls n) (Z.of_nat n * D) adr links base s0 prog.
  Proof.
    induction n as [|n IH]; intros lev xs adr links base s0 hs P Ev Fr q d Nq Vi i s r l vs s1 r' St Rd A Ok Rm0 P1 Rm1 Cl; [destruct Cl|].
    destruct Cl as (d' & Nq' & Other & Body). rewrite Nq in Nq'. injection Nq' as <-.
    pose proof (Dc q d Nq) as [Text Ov Lo Fm Lv Lb Sl]. pose proof (Need q d Nq) as Nd. destruct (Loaded q d Nq) as (j & label & inner & main & Sj & Hm & Hl & Sim).
    destruct Vi as (V1 & V2). pose proof (pbt_stack _ _ _ _ _ _ _ _ _ Text) as Ds. pose proof (pbt_once _ _ _ _ _ _ _ _ _ Text) as On.
    pose proof (need_pos d ltac:(lia)) as Np.
    set (k := pLevel (d_proc d)) in *.
    assert (Os : forall x, In x (d_os d) -> In x xs /\ vlev x <= k) by (intros x; apply V2).
    pose proof (frames_surrounded lev xs adr links base s0 hs P Fr s r Rd k V1) as Su.
    pose proof (frames_placed lev xs adr links base s0 hs P Fr s r Rd k (d_os d) V1 Os) as Po.
    pose proof Rd as (G & Lk & Bs & Ho). pose proof G as (C & Gc & Gf & Gl & _). pose proof (fc_regs _ _ _ _ _ _ Fr) as (Q1 & Q2 & Q3).
    destruct Rm0 as (Rm0 & Se). destruct Rm1 as (Rm1 & _).
    assert (Rg : regular s) by (unfold regular; rewrite Gc, Gf, Gl; auto).
    destruct (pinvoke decls (d_proc d) (d_parms d) (d_os d) (d_ls d) (d_dstack d) (d_ini d) (d_toks d) (d_body d) label inner main
      Lv Lb Sl Ov Lo Ds On Hl Hm Sim prog i j r (fun _ => 0) l vs s s1 (hs k) adr links base r
      (fun rc => forall x, In x (d_os d) -> rc x = r' x) (calling decls n) (Z.of_nat n * D) St Sj A Ok Rg)
      as (s' & rc & X1 & X2 & X3 & X4 & X5 & X6); auto.
    { apply Rm0. }
    { nia. }
    { apply (room_mono _ _ _ Rm1). unfold d_need, room_for in *. nia. }
    { intros x Hx. apply Ho, (Os x Hx). }
    { intros s2 C2 K2 Sl2 Fl2 Ff F1 F2 F3 Pl.
      apply (IH (k + 1) _ _ _ _ s2 (fun j => if j =? k + 1 then fp s2 else hs j) Pl); [congruence|].
      apply (frames_called lev xs adr links base s0 hs P Fr s r Rd k (d_os d) _ _ (slots (d_parms d)) (d_dstack d) s2); auto; try lia.
      - apply (all_front (k + 1) None).
      - apply slots_pos.
      - apply slots_even. }
    exists s'. split; [exact X1|]. split; [exact X3|]. split; [cbn [length]; lia|]. split; [intros [|m] v Hv; discriminate|].
    split.
    - intros w Hw Nw. apply X6; [exact Hw|]. intros x Hx. apply Nw, (Os x Hx).
    - intros x Hx.
      assert (Dec : In x (d_os d) \/ ~ In x (d_os d)).
      { rewrite V2. destruct (Z_le_dec (vlev x) k); [left; auto|right; intros (_ & H); lia]. }
      destruct Dec as [I|I].
      + rewrite <- (X2 x I). apply X5, I.
      + rewrite (Other x I). assert (Vx : k < vlev x) by (destruct (Z_le_dec (vlev x) k); [elim I; apply V2; auto|lia]).
        destruct (pl_vars _ _ _ _ _ _ P x Hx) as (B1 & B2 & B3). destruct X3 as (C3 & _).
        assert (Ev' : c_ssz (cf s) mod 2 = 0) by (rewrite C; exact Ev).
        apply (contains_bytes s s'); [exact C3|exact Ev'|exact B3| |apply Ho, Hx].
        intros b Hb. apply rd_rdb'; [exact C3|exact Ev'|].
        assert (Wb : within adr x (b / 2)).
        { unfold within. split; [apply Z.div_le_mono; lia|apply Z.div_le_mono; lia]. }
        apply X6; [unfold within in Wb; lia|]. intros y Hy Wy. destruct (Os y Hy) as (Hy1 & Hy2).
        apply (fc_apart _ _ _ _ _ _ Fr x y (b / 2) Hx Hy1 ltac:(lia) Wb Wy).
  Qed.
End Depth.
