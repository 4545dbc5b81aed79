(** The output of the compiler for a whole program can be resolved and executed. *)

From Coq Require Import ZArith Bool List Lia ZifyBool.
From Verif Require Import Words WordLemmas State Opcodes Machine VmSpec HeapModel OptSpec EncodeModel EncodeSpec ExprModel ExprSpec StmtModel StmtPlain StmtLabels
  StmtMain ActModel ActSpec BlockModel BlockSpec BlockProofs StartModel StartSpec RecModel RecSpec RecCode RecText RecBlock RecProgram RecLabels RealRun RealMain RealCases.
From Verif Require FinalModel FinalSpec FinalProofs FinalMain BlockCases.
From Verif Require Import StmtSpec.
Import ListNotations.
Open Scope Z_scope.

Lemma has_label_in ops x : In x (labels ops) -> FinalSpec.has_label ops x.
Proof.
  unfold labels. rewrite in_map_iff. intros (p & E & I). apply filter_In in I. exists p. destruct I as (I & O). repeat split; [exact I|lia|exact E].
Qed.

Section Program.
  Variables (procs : tok -> proc) (decls : list decl).
  Hypothesis Dc : forall q d, nth_error decls q = Some d -> declared procs decls d.
  Hypothesis Names : forall t, tk t = sPROC -> exists q d, nth_error decls q = Some d /\ procs t = d_proc d.

  (** The output of the compiler *)
  Lemma output_parts xs dstack inits ini ts ss : pblock_text procs decls 0 xs dstack inits ini ts ss ->
    forall c b rest label inner ds, toks c = ts ++ b :: rest -> tk b = tPERIOD -> out c = [] ->
    g_level c = 0 -> g_adjust c = 0 -> g_continue c = 0 -> g_break c = 0 -> 0 < label ->
    made procs label ds (inner_code inner) (g_label c) -> (forall d, In d ds <-> In d decls) ->
    g_label c + 4 * Z.of_nat (length (toks c)) <= 65535 ->
    exists c' main N,
      (forall n, (N <= n)%nat -> pprogram procs n label dstack inner inits c = SDone c') /\ errs c' = errs c /\
      out c' = inner_code inner ++ main ++ [mkOp oEND 0 0] /\
      closed_code decls (label - 1) (g_label c') (inner_code inner ++ main) /\ In label (labels main) /\
      (forall d, In d decls -> In (pLabel (d_proc d)) (labels (inner_code inner)) /\ exists cd j, code_of procs d cd /\ stands (inner_code inner) j cd).
  Proof.
    intros Bt [T O E l L C B A] b rest label inner ds. cbn [toks out errs g_label g_level g_continue g_break g_adjust].
    intros -> Tb -> -> -> -> -> Lp Md Ds R.
    destruct (made_closed procs decls Dc Names _ _ _ _ Md ltac:(lia) (fun d => proj1 (Ds d))) as ([I1 I2 I3 I4] & G1 & D1).
    destruct (block_closed procs decls Dc Names 0 xs dstack inits ini ts ss Bt label inner (b :: rest) [] E l ltac:(lia) R) as (main & l' & N & Hc & Hl & [F1 F2 F3 F4 F5]).
    exists (mkComp (b :: rest) (inner_code inner ++ main ++ [mkOp oEND 0 0]) E l' 0 0 0 0), main, N. split; [|split; [reflexivity|split; [reflexivity|]]].
    { intros n Hn. unfold pprogram. rewrite Hc by exact Hn. cbn [binds]. unfold error_if.
      match goal with |- context [token ?q =? tPERIOD] => replace (token q =? tPERIOD) with true by (unfold token; cbn; rewrite Tb; reflexivity) end.
      cbn [negb]. rewrite c_simple by reflexivity. rewrite nested_split. cbn [app]. rewrite <- !app_assoc.
      replace (jump_code 0 label inner) with (@nil opType) by (unfold jump_code; destruct inner; [rewrite andb_comm|]; reflexivity). reflexivity. }
    cbn [g_label]. split; [|split; [exact F2|intros d Id; apply D1, Ds, Id]]. constructor.
    - rewrite labels_app. apply NoDup_join; auto. intros x X Y. apply I2 in X. apply F3 in Y. lia.
    - intros x X. rewrite labels_app, in_app_iff in X. destruct X as [X|X]; [apply I2 in X; lia|apply F3 in X; lia].
    - intros x X. rewrite labels_app, in_app_iff. rewrite targets_app, in_app_iff in X. destruct X as [X|X]; auto.
    - apply Forall_app. auto.
  Qed.

  (** ... is a program in the sense of the label resolution. *)
  Lemma output_text l l' body : closed_code decls l l' body -> (forall d, In d decls -> In (pLabel (d_proc d)) (labels body)) ->
    let ops := body ++ [mkOp oEND 0 0] in
    FinalSpec.program_text ops /\ FinalSpec.labels_once ops /\ (forall p, In p ops -> ~ FinalSpec.unsigned_branch (op p)) /\
    FinalSpec.references_ok ops [] /\ labels ops = labels body.
  Proof.
    intros [H1 H2 H3 H4] D ops. rewrite Forall_forall in H4. 
    assert (El : labels ops = labels body) by (unfold ops; rewrite labels_app; cbn; apply app_nil_r).
    assert (Kn : forall p, In p body -> known_code (op p) = true) by (intros p I; apply (H4 p I)).
    split; [|split; [|split; [|split; [split; [|split]|exact El]]]].
    - exists body. split; [reflexivity|]. split; apply Forall_forall; intros p I; [apply (H4 p I)|]. specialize (Kn p I). intros X. rewrite X in Kn. discriminate Kn.
    - apply labels_nodup. rewrite El. exact H1.
    - intros p I U. unfold ops in I. apply in_app_iff in I. destruct I as [I|[<-|[]]].
      + specialize (Kn p I). unfold FinalSpec.unsigned_branch in U. cbn [In] in U. destruct U as [U|[U|[U|[U|[]]]]]; rewrite <- U in Kn; discriminate Kn.
      + unfold FinalSpec.unsigned_branch in U. cbn in U. intuition discriminate.
    - intros p I U. apply has_label_in. rewrite El. apply H3. unfold targets. apply in_map. apply filter_In. unfold ops in I. apply in_app_iff in I. destruct I as [I|[<-|[]]].
      + split; [exact I|]. unfold is_jump. apply existsb_exists. exists (op p). split; [exact U|apply Z.eqb_refl].
      + exfalso. unfold FinalSpec.branch in U. cbn in U. intuition discriminate.
    - intros p I U. left. apply has_label_in. rewrite El. unfold ops in I. apply in_app_iff in I. destruct I as [I|[<-|[]]]; [|discriminate U].
      destruct (H4 p I) as (_ & Ca). destruct (Ca U) as (q & d & Nq & ->). apply D. eapply nth_error_In, Nq.
    - intros s [].
  Qed.

  Theorem output_resolved xs dstack inits ini ts ss : pblock_text procs decls 0 xs dstack inits ini ts ss ->
    forall c b rest label inner ds, toks c = ts ++ b :: rest -> tk b = tPERIOD -> out c = [] ->
    g_level c = 0 -> g_adjust c = 0 -> g_continue c = 0 -> g_break c = 0 -> 0 < label ->
    made procs label ds (inner_code inner) (g_label c) -> (forall d, In d ds <-> In d decls) ->
    g_label c + 4 * Z.of_nat (length (toks c)) <= 65535 ->
    exists c' N, (forall n, (N <= n)%nat -> pprogram procs n label dstack inner inits c = SDone c') /\ errs c' = errs c /\
      FinalSpec.program_text (out c') /\ FinalSpec.labels_once (out c') /\ (forall p, In p (out c') -> ~ FinalSpec.unsigned_branch (op p)) /\
      forall nf rels, (length (out c') < nf)%nat -> exists f, FinalModel.finalize nf (write_program (out c')) FinalModel.FHT_PROGRAM label [] rels = FinalModel.FDone f.
  Proof.
    intros Bt c b rest label inner ds T Tb O L A C B Lp Md Ds R.
    destruct (output_parts _ _ _ _ _ _ Bt c b rest label inner ds T Tb O L A C B Lp Md Ds R) as (c' & main & N & C1 & C2 & C3 & C4 & C5 & C6).
    destruct (output_text _ _ _ C4) as (X1 & X2 & X3 & X4 & X5).
    { intros d I. rewrite labels_app, in_app_iff. left. apply (C6 d I). }
    cbn zeta in X1, X2, X3, X4, X5. rewrite <- app_assoc in X1, X2, X3, X4, X5. rewrite <- C3 in X1, X2, X3, X4, X5.
    exists c', N. repeat (split; [assumption|]). intros nf rels Ln. apply FinalMain.finalize_succeeds; auto. intros _. apply has_label_in.
    rewrite X5, labels_app, in_app_iff. right. exact C5.
  Qed.

  Theorem whole_program xs dstack inits ini ts ss : pblock_text procs decls 0 xs dstack inits ini ts ss -> locals 0 dstack xs ->
    forall c b rest label inner ds, toks c = ts ++ b :: rest -> tk b = tPERIOD -> out c = [] ->
    g_level c = 0 -> g_adjust c = 0 -> g_continue c = 0 -> g_break c = 0 -> 0 < label ->
    made procs label ds (inner_code inner) (g_label c) -> (forall d, In d ds <-> In d decls) ->
    g_label c + 4 * Z.of_nat (length (toks c)) <= 65535 ->
    exists c' N, (forall n, (N <= n)%nat -> pprogram procs n label dstack inner inits c = SDone c') /\ errs c' = errs c /\
      (FinalSpec.code_size (FinalSpec.instructions (out c')) < 65536 ->
       forall nf rels, (length (out c') < nf)%nat ->
       exists f, FinalModel.finalize nf (write_program (out c')) FinalModel.FHT_PROGRAM label [] rels = FinalModel.FDone f /\
       forall D n, (forall q d, nth_error decls q = Some d -> d_need d <= D) -> 0 <= D ->
       forall a junk maxpc, startable a -> a_entry a = FinalModel.f_entry f -> Z.of_nat (length (FinalModel.f_prog f)) <= maxpc ->
       10 + whole dstack + 4 * Z.of_nat (length ts) + 4 + 2 * Z.of_nat n * D < a_stk a ->
       forall Q : env -> Prop, (forall r r1, started ini r r1 -> exists r', pmeans_seq decls (calling decls n) ss r1 Normal r' /\ Q r') ->
       exists s s' r' k, initialize a junk = HV s /\ run k (FinalModel.f_prog f) maxpc s = Some (Err eEXIT s') /\ Q r' /\
         same_regs s s' /\ sp s' = sp s /\ holding xs (fun x => stack_at a + 10 + voff x) s' r').
  Proof.
    intros Bt Lo c b rest label inner ds T Tb O L A C B Lp Md Ds R.
    destruct (output_parts _ _ _ _ _ _ Bt c b rest label inner ds T Tb O L A C B Lp Md Ds R) as (c' & main & N & C1 & C2 & C3 & C4 & C5 & C6).
    destruct (output_text _ _ _ C4) as (X1 & X2 & X3 & X4 & X5).
    { intros d I. rewrite labels_app, in_app_iff. left. apply (C6 d I). }
    cbn zeta in X1, X2, X3, X4, X5. rewrite <- app_assoc in X1, X2, X3, X4, X5. rewrite <- C3 in X1, X2, X3, X4, X5.
    destruct (made_closed procs decls Dc Names _ _ _ _ Md ltac:(lia) (fun d => proj1 (Ds d))) as (_ & G1 & _).
    assert (Lt : (length ts <= length (toks c))%nat) by (rewrite T, app_length; lia).
    destruct (program_executed procs decls Dc xs dstack inits ini ts ss Bt Lo c b rest label inner T Tb L A ltac:(lia) ltac:(lia) ltac:(lia))
      as (c2 & main2 & N2 & P1 & P2 & P3 & X).
    assert (c2 = c') by (specialize (C1 (max N N2) ltac:(lia)); specialize (P1 (max N N2) ltac:(lia)); congruence). subst c2.
    rewrite O in P3. cbn [app] in P3. fold (inner_code inner) in P3.
    exists c', N. split; [exact C1|]. split; [exact C2|]. intros Sz nf rels Ln.
    destruct (FinalMain.finalize_succeeds nf (out c') FinalModel.FHT_PROGRAM label [] rels X1 Ln X4) as (f & Fi).
    { intros _. apply has_label_in. rewrite X5, labels_app, in_app_iff. right. exact C5. }
    exists f. split; [exact Fi|]. intros D n Dn D0 a junk maxpc St En Mx Rm Q Qm.
    apply (X (out c') (length (inner_code inner))) with (nf := nf) (syms := @nil FinalModel.symbol) (rels := rels) (D := D) (n := n); auto.
    - rewrite P3. pose proof (BlockCases.stands_at (inner_code inner) (main2 ++ [mkOp oEND 0 0]) []) as Sa. rewrite app_nil_r in Sa. exact Sa.
    - intros q d Nq. destruct (C6 d (nth_error_In _ _ Nq)) as (_ & cd & j & Y & Z0). exists cd, j. split; [exact Y|]. rewrite C3. apply stands_earlier. exact Z0.
  Qed.
End Program.
