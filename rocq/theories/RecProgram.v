(** Programs with procedures. *)

From Coq Require Import ZArith Bool List Lia ZifyBool.
From Verif Require Import Words WordLemmas State StateLemmas Opcodes EncodeModel Machine VmSpec VmProofs HeapModel
  OptSpec ExprModel ExprSpec ExprRun ExprOps ExprLoad StmtModel StmtSpec StmtPlain StmtRun StmtStep StmtMain
  ActModel ActSpec BlockModel BlockSpec BlockProofs BlockFrame StartModel StartSpec StartProofs StartMain RecModel RecSpec RecCode RecMain RecBlock RecFrames.
From Verif Require Import StmtSpec StmtRun StmtMain.
Import ListNotations.
Open Scope Z_scope.

Section Program.
  Variables (procs : tok -> proc) (decls : list decl).
  Hypothesis Dc : forall q d, nth_error decls q = Some d -> declared procs decls d.

  Lemma d_formals q d : nth_error decls q = Some d -> Forall2 described (pFormals (d_proc d)) (d_parms d).
  Proof. intros H. apply (dc_formals _ _ _ (Dc q d H)). Qed.
  Lemma d_levels q d : nth_error decls q = Some d -> 0 <= pLevel (d_proc d) < 255.
  Proof. intros H. apply (dc_level _ _ _ (Dc q d H)). Qed.
  Lemma d_labels q d : nth_error decls q = Some d -> 0 <= pLabel (d_proc d) < 65536.
  Proof. intros H. apply (dc_label _ _ _ (Dc q d H)). Qed.
  Lemma d_slots q d : nth_error decls q = Some d -> slots (d_parms d) <= 32768.
  Proof. intros H. apply (dc_slots _ _ _ (Dc q d H)). Qed.

  Lemma procedure_compiles q d : nth_error decls q = Some d -> forall c b rest label inner, before_body d c b rest label ->
    exists c' main N,
      (forall n, (N <= n)%nat -> proutine procs n (pLabel (d_proc d)) label (d_dstack d) inner (d_inits d) c = SDone c') /\
      toks c' = rest /\ errs c' = errs c /\ g_level c' = g_level c - 1 /\
      out c' = out c ++ mkOp oLABEL 0 (pLabel (d_proc d)) :: nested_code (d_level d) label inner ++ main ++ [mkOp oRET 0 0] /\
      hd_error main = Some (mkOp oLABEL 0 label) /\
      pblock_sim decls (d_level d) (d_vars d) (d_dstack d) (d_ini d) (d_toks d) (d_body d) main.
  Proof.
    intros Nq c b rest label inner (T & Tb & L & A & H1 & H2 & H3). rewrite L.
    apply (proutine_ok procs decls d_formals d_levels d_labels d_slots _ _ _ _ _ _ _ (dc_text _ _ _ (Dc q d Nq)) c b rest); auto; try lia.
    pose proof (d_labels q d Nq). lia.
  Qed.

  Lemma code_loaded q d code prog j : nth_error decls q = Some d -> code_of procs d code -> stands prog j code ->
    exists j label inner main,
    stands prog j (mkOp oLABEL 0 (pLabel (d_proc d)) :: nested_code (d_level d) label inner ++ main ++ [mkOp oRET 0 0]) /\
    hd_error main = Some (mkOp oLABEL 0 label) /\ 0 < label /\
    pblock_sim decls (d_level d) (d_vars d) (d_dstack d) (d_ini d) (d_toks d) (d_body d) main.
  Proof.
    intros Nq (c & b & rest & label & inner & c' & N & Bf & Cc & Co) Sj.
    destruct (procedure_compiles q d Nq c b rest label inner Bf) as (c2 & main & N2 & C2 & _ & _ & _ & O2 & Hm & Sim).
    assert (c2 = c') by (specialize (Cc (max N N2) ltac:(lia)); specialize (C2 (max N N2) ltac:(lia)); congruence). subst c2.
    rewrite Co in O2. apply app_inv_head in O2. subst code. exists j, label, inner, main. destruct Bf as (_ & _ & _ & _ & _ & _ & L).
    split; [exact Sj|]. split; [exact Hm|]. split; [lia|exact Sim].
  Qed.

  (** The main program *)
  Section Main.
    Variables (a : attr) (s : st) (dstack : Z) (xs : list var).
    Hypothesis St : startable a.
    Hypothesis A : at_start a s.
    Hypothesis Lo : locals 0 dstack xs.
    Hypothesis Ds : 0 <= dstack <= 32766.
    Hypothesis Fit : 10 + whole dstack < a_stk a.
    Definition header (i : Z) : Prop := fp s / 2 <= i < fp s / 2 + 5.

    Lemma main_placed : placed 0 xs (global_adr s) header ((sp s + whole dstack) / 2) s.
    Proof.
      pose proof (start_facts a s St A) as (F1 & F2 & F3 & F4 & F5 & F6 & F7 & F8 & F9 & F10).
      destruct (global_placed a s St A dstack xs Lo Ds Fit) as [P1 P2 P3 P4 P5].
      assert (W : dstack <= whole dstack <= dstack + 1 /\ whole dstack mod 2 = 0) by (unfold whole; lia). constructor; auto.
      - intros s' R _. apply P2; [exact R|intros i []].
      - intros i H. unfold header in H. split; [lia|]. intros x Hx W'. destruct (lo_at _ _ _ Lo x Hx) as (L1 & L2 & _).
        unfold within, global_adr in W'. rewrite F3 in W'. lia.
    Qed.
    Lemma main_frames : frames 0 xs (global_adr s) header s (fun _ => fp s).
    Proof.
      pose proof (start_facts a s St A) as (F1 & F2 & F3 & F4 & F5 & F6 & F7 & F8 & F9 & F10).
      assert (W : dstack <= whole dstack <= dstack + 1 /\ whole dstack mod 2 = 0) by (unfold whole; lia). constructor.
      - lia.
      - destruct (start_regular a s St A) as (R1 & R2 & R3 & _). auto.
      - reflexivity.
      - intros s' C K j J. replace j with 0 by lia. pose proof (start_chain a s A) as Ch. inversion Ch as [f Fl|f l g m _ L]; subst; [|lia].
        destruct Fl as (w & k & Fl1 & Fl2). exists w, k. split; [|exact Fl2]. rewrite K; [exact Fl1|]. unfold header. lia.
      - intros. lia.
      - intros s' C K j x J Fj Hx _. replace j with 0 by lia. destruct (lo_at _ _ _ Lo x Hx) as (L1 & L2 & L3 & L4). pose proof (sizes_small (vty x)).
        unfold var_address. rewrite L1. cbn [Z.eqb]. unfold global_ea, global_adr. rewrite C. split; [lia|]. exists 0. lia.
      - intros x y i Hx Hy V. destruct (lo_at _ _ _ Lo x Hx) as (L1 & _), (lo_at _ _ _ Lo y Hy) as (L2 & _). congruence.
    Qed.
  End Main.

  Theorem pprogram_runs xs dstack inits ini ts ss : pblock_text procs decls 0 xs dstack inits ini ts ss -> locals 0 dstack xs ->
    forall c b rest label inner, toks c = ts ++ b :: rest -> tk b = tPERIOD -> g_level c = 0 -> g_adjust c = 0 ->
    0 <= g_label c -> g_label c + 2 * Z.of_nat (length ts) <= 65535 -> 0 <= label <= 65535 ->
    exists c' main N,
      (forall n, (N <= n)%nat -> pprogram procs n label dstack inner inits c = SDone c') /\
      errs c' = errs c /\
      out c' = out c ++ match inner with Some code => code | None => [] end ++ main ++ [mkOp oEND 0 0] /\
      hd_error main = Some (mkOp oLABEL 0 label) /\
      forall prog i, stands prog i (main ++ [mkOp oEND 0 0]) ->
      (forall q d, nth_error decls q = Some d -> exists code j, code_of procs d code /\ stands prog j code) ->
      forall D n, (forall q d, nth_error decls q = Some d -> d_need d <= D) -> 0 <= D ->
      forall a junk, startable a -> 10 + whole dstack + 4 * Z.of_nat (length ts) + 4 + 2 * Z.of_nat n * D < a_stk a ->
      forall Q : env -> Prop, (forall r r1, started ini r r1 -> exists r', pmeans_seq decls (calling decls n) ss r1 Normal r' /\ Q r') ->
      exists s s' r', initialize a junk = HV s /\ cruns prog (i, [], s) ((i + length main)%nat, [], s') /\
        nth_error prog (i + length main) = Some (mkOp oEND 0 0) /\ Q r' /\
        same_regs s s' /\ sp s' = sp s /\ holding xs (fun x => stack_at a + 10 + voff x) s' r'.
  Proof.
    intros Bt Lo c b rest label inner T Tb L A H1 H2 H3.
    destruct (pprogram_ok procs decls d_formals d_levels d_labels d_slots xs dstack inits ini ts ss Bt c b rest label inner T Tb L A H1 H2 H3)
      as (c' & main & N & C1 & C2 & C3 & C4 & Sim).
    exists c', main, N. split; [exact C1|]. split; [exact C2|]. split; [exact C3|]. split; [exact C4|].
    intros prog i Si Ld D n Nd D0 a junk Sa Fit Q Me. pose proof (pbt_stack _ _ _ _ _ _ _ _ _ Bt) as Ds. pose proof (pbt_once _ _ _ _ _ _ _ _ _ Bt) as On.
    apply stands_app in Si. destruct Si as (S1 & S2).
    destruct (start_ok a junk Sa) as (s & I & As & _).
    pose proof (start_facts a s Sa As) as (F1 & F2 & F3 & F4 & F5 & F6 & F7 & F8 & F9 & F10).
    assert (W : dstack <= whole dstack <= dstack + 1 /\ whole dstack mod 2 = 0) by (unfold whole; lia).
    assert (Nn : 0 <= Z.of_nat n * D) by nia.
    destruct (global_values a s Sa As dstack xs Lo ltac:(lia)) as (r & R).
    assert (Sta : started ini r (assigned ini r)).
    { split; [intros x z Hx; destruct (assigned_in ini r x) as (w & W1 & W2); [apply (in_map fst) in Hx; exact Hx|]; rewrite W2; eapply once_fun; [exact On|eassumption|eassumption]|intros x Hx; apply assigned_other, Hx]. }
    destruct (Me r _ Sta) as (r' & M & Hq).
    pose proof (main_placed a s dstack xs Sa As Lo Ds ltac:(lia)) as G. assert (Fr : frames 0 xs (global_adr s) (header s) s (fun _ => fp s)) by (eapply main_frames; try eassumption; lia).
    assert (Ab : able decls 0 xs (calling decls n) (Z.of_nat n * D) (global_adr s) (header s) ((sp s + whole dstack) / 2) s prog).
    { apply (able_calls procs decls prog D Dc Nd) with (hs := fun _ => fp s); auto.
      intros q d Nq. destruct (Ld q d Nq) as (code & j & Co & Sj). eapply code_loaded; eauto. }
    destruct (Sim _ _ Nn (global_adr s) (header s) _ s G F6 prog Ab i S1 s r (assigned ini r) r') as (s' & X & (M1 & M2 & M3 & M4)).
    + apply same_regs_refl.
    + reflexivity.
    + lia.
    + exact R.
    + split; [|exact F7]. apply (start_room a s Sa As); unfold room_for; lia.
    + exact Sta.
    + exact M.
    + exists s, s', r'. split; [exact I|]. split; [apply (X [])|]. split; [|split; [exact Hq|split; [exact M1|split; [lia|]]]].
      * specialize (S2 0%nat (mkOp oEND 0 0) eq_refl). rewrite Nat.add_0_r in S2. exact S2.
      * intros x Hx. specialize (M3 x Hx). unfold global_adr in M3. rewrite F3, F2, F1 in M3. exact M3.
  Qed.
End Program.
