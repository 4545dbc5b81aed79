(** The statements that open, close and flush files. *)

From Coq Require Import ZArith Bool List Lia ZifyBool.
From Verif Require Import Words WordLemmas State StateLemmas Opcodes EncodeModel SetModel LongModel Machine VmSpec
  VmProofs MemProofs MultiProofs ExprModel ExprSpec ExprRun ExprOps ExprLoad ExprProofs ExprMain
  StmtModel ArrModel ArrProofs ArrCases WriteModel WriteSpec WriteRun WriteProofs WriteMain FileModel FileSpec.
From Verif Require SysioModel SysioSpec SysioProofs SysioText StringSpec StringProofs.
Import ListNotations.
Open Scope Z_scope.
Local Ltac Zify.zify_post_hook ::= Z.div_mod_to_equations.

(** ** The functions of system I/O *)

Definition fcode (p : fop) : Z :=
  match p with
  | FOpenRead => SysioModel.xRESET | FOpenWrite => SysioModel.xREWRITE | FOpenAppend => SysioModel.xAPPEND
  | FClose => SysioModel.xCLOSEFILE | FPage => SysioModel.xWRITE_PAGE | FFlush => SysioModel.xFLUSH
  end.
Definition fcode2 (p : fop) : Z := match p with FOpenRead => SysioModel.xRESETR | _ => SysioModel.xREWRITER end.
Definition fmode (p : fop) : Z :=
  match p with FOpenRead => SysioModel.eOPEN_READ | FOpenWrite => SysioModel.eOPEN_WRITE | _ => SysioModel.eOPEN_APPEND end.

Definition act (p : fop) (e : SysioModel.env) (s : st) (t : SysioModel.io) (n : Z) : SysioModel.sres :=
  match p with
  | FOpenRead | FOpenWrite | FOpenAppend => SysioModel.done s (SysioModel.open_file e t n (fmode p))
  | FClose => SysioModel.done s (SysioModel.close_file t n)
  | FPage => SysioModel.write_text e s t n 0 [12]
  | FFlush => SysioModel.flush s t n
  end.
Lemma sysio_act p e s t : SysioModel.sysio e s t (fcode p) = SysioModel.sbind (pop s) (fun '(n, s) => act p e s t n).
Proof. destruct p; reflexivity. Qed.
Lemma sysio_act2 p e s t : p = FOpenRead \/ p = FOpenWrite ->
  SysioModel.sysio e s t (fcode2 p) = SysioModel.sbind (pop s) (fun '(size, s) => SysioModel.sbind (pop s) (fun '(n, s) =>
    SysioModel.done s (SysioModel.record_size (snd (SysioModel.open_file e t n (fmode p))) n size))).
Proof. intros [-> | ->]; reflexivity. Qed.

Section Act.
  Variables (e : SysioModel.env) (n : Z) (t : SysioModel.io).
  Hypotheses (N : 0 <= n < 8) (L : (8 <= length (SysioModel.ftab t))%nat).
  Lemma small : (SysioModel.MAX_OPEN_FILES <=? n) = false. Proof. unfold SysioModel.MAX_OPEN_FILES. lia. Qed.
  Lemma put_other m x : 0 <= m < 8 -> m <> n -> SysioModel.ent (SysioModel.put t n x) m = SysioModel.ent t m.
  Proof. intros. unfold SysioModel.ent, SysioModel.put. cbn [SysioModel.ftab]. apply SysioProofs.set_nth_other. lia. Qed.

  Lemma writable_iff : (exists y, SysioSpec.writable t n y) <-> SysioModel.check_write t n = eNOERROR.
  Proof.
    split; [intros (y & W); exact (SysioText.writable_check _ _ _ W)|].
    unfold SysioModel.check_write. rewrite small. unfold SysioModel.is_open, SysioSpec.writable.
    destruct (SysioModel.e_str (SysioModel.ent t n)) as [y|]; [|discriminate]. cbn [negb orb].
    destruct (Z.eqb_spec (SysioModel.e_mode (SysioModel.ent t n)) SysioModel.eOPEN_WRITE); [exists y; auto|].
    destruct (Z.eqb_spec (SysioModel.e_mode (SysioModel.ent t n)) SysioModel.eOPEN_APPEND); [exists y; auto|]. discriminate.
  Qed.

  Lemma act_ok p s : possible e n p t -> exists t', act p e s t n = SysioModel.SR eNOERROR s t' /\ did e n p None t t'.
  Proof.
    intros P. assert (Op : p = FOpenRead \/ p = FOpenWrite \/ p = FOpenAppend ->
      exists t', act p e s t n = SysioModel.SR eNOERROR s t' /\ did e n p None t t').
    { intros Q. assert (P' : SysioModel.e_str (SysioModel.ent t n) = None /\ SysioModel.e_open e <> None) by (destruct Q as [-> |[-> | ->]]; exact P).
      destruct P' as (P1 & P2). destruct (SysioModel.e_open e) as [l|] eqn:El; [|congruence].
      assert (E : act p e s t n = SysioModel.done s (SysioModel.open_file e t n (fmode p))) by (destruct Q as [-> |[-> | ->]]; reflexivity).
      rewrite E. unfold SysioModel.open_file, SysioModel.is_open. rewrite small, P1, El. eexists. split; [reflexivity|].
      cbn [snd]. unfold did. rewrite !SysioText.ent_put' by auto. cbn [SysioModel.e_name SysioModel.e_text SysioModel.e_use SysioModel.e_rec SysioModel.e_str SysioModel.e_mode SysioModel.set_mode SysioModel.set_str].
      split; [intros; apply put_other; assumption|]. repeat (split; [reflexivity|]).
      destruct Q as [-> |[-> | ->]]; [exists l; split; [exact El|]|..]; split; reflexivity. }
    destruct p; try (apply Op; tauto).
    - cbn [possible act] in *. unfold SysioModel.close_file, SysioModel.is_open. rewrite small.
      destruct (SysioModel.e_str (SysioModel.ent t n)) as [y|] eqn:E; [|congruence]. cbn [negb]. eexists. split; [reflexivity|].
      cbn [snd]. unfold did. rewrite !SysioText.ent_put' by auto. split; [intros; apply put_other; assumption|]. repeat split.
    - cbn [possible act] in *. destruct P as (W & F). destruct W as (y & W). unfold SysioModel.write_text. rewrite (SysioText.writable_check _ _ _ W), F.
      change (negb (eNOERROR =? eNOERROR)) with false. cbv iota zeta. eexists. split; [reflexivity|].
      unfold SysioModel.emit, SysioModel.put_stream. unfold did. rewrite !SysioText.ent_put' by auto.
      destruct W as (W1 & W2 & W3 & W4). assert (X : SysioModel.the_stream (SysioModel.ent t n) = y) by (unfold SysioModel.the_stream; rewrite W3; reflexivity).
      rewrite X. split; [intros; apply put_other; assumption|]. repeat (split; [reflexivity|]). exists y. split; [exact W3|]. split; reflexivity.
    - cbn [possible act] in *. unfold SysioModel.flush. rewrite (proj1 writable_iff P). exists t. split; [reflexivity|]. repeat split.
  Qed.

  Lemma act_fails p s : ~ possible e n p t -> exists c t', act p e s t n = SysioModel.SR c s t' /\ c <> eNOERROR.
  Proof.
    intros P. assert (Op : p = FOpenRead \/ p = FOpenWrite \/ p = FOpenAppend -> exists c t', act p e s t n = SysioModel.SR c s t' /\ c <> eNOERROR).
    { intros Q. assert (P' : ~ (SysioModel.e_str (SysioModel.ent t n) = None /\ SysioModel.e_open e <> None)) by (destruct Q as [-> |[-> | ->]]; exact P).
      assert (E : act p e s t n = SysioModel.done s (SysioModel.open_file e t n (fmode p))) by (destruct Q as [-> |[-> | ->]]; reflexivity).
      rewrite E. unfold SysioModel.open_file, SysioModel.is_open. rewrite small.
      destruct (SysioModel.e_str (SysioModel.ent t n)) as [y|]; [eexists _, _; split; [reflexivity|discriminate]|].
      destruct (SysioModel.e_open e) as [l|]; [exfalso; apply P'; split; [reflexivity|discriminate]|eexists _, _; split; [reflexivity|discriminate]]. }
    destruct p; try (apply Op; tauto).
    - cbn [possible act] in *. unfold SysioModel.close_file, SysioModel.is_open. rewrite small.
      destruct (SysioModel.e_str (SysioModel.ent t n)) as [y|] eqn:E; [exfalso; apply P; discriminate|]. cbn [negb]. eexists _, _. split; [reflexivity|discriminate].
    - cbn [possible act] in *. rewrite writable_iff in P. unfold SysioModel.write_text.
      destruct (Z.eqb_spec (SysioModel.check_write t n) eNOERROR) as [E|E]; cbn [negb].
      + destruct (SysioModel.e_fail e); [eexists _, _; split; [reflexivity|discriminate]|tauto].
      + eexists _, _. split; [reflexivity|exact E].
    - cbn [possible act] in *. rewrite writable_iff in P. unfold SysioModel.flush. eexists _, _. split; [reflexivity|exact P].
  Qed.

  Lemma act2_ok p s z : p = FOpenRead \/ p = FOpenWrite -> possible e n p t ->
    exists t', SysioModel.done s (SysioModel.record_size (snd (SysioModel.open_file e t n (fmode p))) n (z mod 65536)) = SysioModel.SR eNOERROR s t' /\ did e n p (Some z) t t'.
  Proof.
    intros Q P. assert (P' : SysioModel.e_str (SysioModel.ent t n) = None /\ SysioModel.e_open e <> None) by (destruct Q as [-> | ->]; exact P).
    destruct P' as (P1 & P2). destruct (SysioModel.e_open e) as [l|] eqn:El; [|congruence].
    unfold SysioModel.open_file, SysioModel.is_open, SysioModel.record_size. rewrite small, P1, El. cbn [snd]. eexists. split; [reflexivity|].
    cbn [snd]. unfold did. assert (L2 : forall x, (8 <= length (SysioModel.ftab (SysioModel.put t n x)))%nat) by (intros; unfold SysioModel.put; cbn [SysioModel.ftab]; rewrite SysioProofs.set_nth_length; exact L).
    rewrite !SysioText.ent_put' by auto.
    split; [intros m M1 M2; unfold SysioModel.ent, SysioModel.put; cbn [SysioModel.ftab]; rewrite !SysioProofs.set_nth_other by lia; reflexivity|].
    repeat (split; [reflexivity|]). destruct Q as [-> | ->]; [exists l; split; [exact El|]|]; split; reflexivity.
  Qed.
End Act.

(** ** Execution *)

Lemma one_io e f s t : exec_io e [io_code f] s t =
  match SysioModel.sysio e s t f with
  | SysioModel.SR code s' t' => if code =? eNOERROR then Some (with_pc s' (u16 (pc s + 3)), t') else None
  | _ => None
  end.
Proof.
  cbn [exec_io]. unfold io_insn, io_code. cbn [op arg2]. rewrite Z.eqb_refl. destruct (SysioModel.sysio e s t f) as [c s' t'| | |]; try reflexivity.
  destruct (c =? eNOERROR); reflexivity.
Qed.

Lemma leaves s s' : pushed s s' [] -> same_regs s s' /\ sp s' = sp s /\ forall i, i <= sp s / 2 -> rd s' i = rd s i.
Proof. intros (A & B & _ & C). cbn [length] in B. split; [exact A|]. split; [lia|exact C]. Qed.

Lemma operates_file lev x p : vty x = xWord -> operates lev ([refer lev oLDS x] ++ [io_code (fcode p)]) 1 x p None.
Proof.
  intros T env size e s t R Lo B L Sz. destruct size; [destruct Sz|].
  destruct (run_file lev x env s T R (Lo x (or_introl eq_refl)) B) as (s1 & E1 & P1).
  destruct R as (R1 & R2 & R3 & R4).
  assert (B1 : 0 <= sp s1 < 65536) by (destruct P1 as (_ & Sp & _); cbn [length] in Sp; lia).
  pose proof (pushed_operands _ _ _ B1 P1) as Ho. cbn [rev app] in Ho.
  assert (X : exec_io e ([refer lev oLDS x] ++ [io_code (fcode p)]) s t = exec_io e [io_code (fcode p)] s1 t) by (rewrite exec_io_app, (exec_io_ok e t _ _ _ E1); reflexivity).
  rewrite X, one_io, sysio_act. StringProofs.start_pops Ho. cbn [SysioModel.sbind]. split.
  - intros P. destruct (act_ok e (env x) t B L p (discard s1 1) P) as (t' & -> & D). rewrite Z.eqb_refl. eexists _, _. split; [reflexivity|].
    assert (Q : pushed s (with_pc (discard s1 1) (u16 (pc s1 + 3))) []) by (eapply pushed_discard; [lia|exact P1|reflexivity]).
    destruct (leaves _ _ Q) as (Q1 & Q2 & Q3). auto.
  - intros _ P. destruct (act_fails e (env x) t B L p (discard s1 1) P) as (c & t' & -> & D). rewrite (proj2 (Z.eqb_neq c eNOERROR) D). reflexivity.
Qed.

Lemma operates_size lev x p w code k : vty x = xWord -> p = FOpenRead \/ p = FOpenWrite -> 0 <= k ->
  (forall env z, evalue env xInteger w = Some z -> computes lev code k (evars w) env [z mod 65536]) ->
  operates lev ([refer lev oLDS x] ++ code ++ [io_code (fcode2 p)]) (k + 2) x p (Some w).
Proof.
  intros T Q K C env size e s t R Lo B L Sz. destruct size as [z|]; [|destruct Sz]. cbn [size_is wvars] in *. split; [|discriminate]. intros P.
  destruct (run_file lev x env s T) as (s1 & E1 & P1); [eapply room_mono; [exact R|lia]|apply Lo; left; reflexivity|exact B|].
  destruct (C env z Sz s1) as (s2 & E2 & P2).
  { eapply room_mono; [eapply room_pushed; [exact P1|exact R]|cbn [length]; lia]. }
  { intros y Hy. apply (located_mono _ _ _ _ _ _ P1), Lo. right. exact Hy. }
  pose proof (pushed_app _ _ _ _ _ P1 P2) as P3. cbn [app] in P3. destruct R as (R1 & R2 & R3 & R4).
  assert (B2 : 0 <= sp s2 < 65536) by (destruct P3 as (_ & Sp & _); cbn [length] in Sp; lia).
  pose proof (pushed_operands _ _ _ B2 P3) as Ho. cbn [rev app] in Ho.
  rewrite exec_io_app, (exec_io_ok e t _ _ _ E1), exec_io_app, (exec_io_ok e t _ _ _ E2), one_io, (sysio_act2 p e s2 t Q).
  StringProofs.start_pops Ho. cbn [SysioModel.sbind].
  pose proof (StringProofs.operand_pop _ _ 1%nat _ Ho eq_refl) as E. cbn [Z.of_nat Z.add Pos.of_succ_nat Pos.add Pos.succ] in E. rewrite E. cbn [SysioModel.sbind].
  destruct (act2_ok e (env x) t B L p (discard s2 2) z Q P) as (t' & -> & D). rewrite Z.eqb_refl. eexists _, _. split; [reflexivity|].
  assert (V : pushed s (with_pc (discard s2 2) (u16 (pc s2 + 3))) []) by (eapply pushed_discard; [lia|exact P3|reflexivity]).
  destruct (leaves _ _ V) as (V1 & V2 & V3). auto.
Qed.

(** ** The compiler *)

Lemma file_any lev f x rest c o : names_file f x -> addressable lev x -> toks c = f :: rest -> g_level c = lev ->
  exists b, file_number o c = Some (b, after c rest [refer lev oLDS x]).
Proof.
  intros (K & Lv & Of & _) Ad Tk G. unfold file_number.
  assert (Cu : cur c = f) by (unfold cur; rewrite Tk; reflexivity).
  assert (Tc : token c = tk f) by (unfold token; rewrite Cu; reflexivity).
  rewrite Tc, Cu. exists (tk f =? sTEXTFILE).
  assert (X : existsb (Z.eqb (tk f)) [sPOINTER; sVAR_PARM; sARRAY] = false /\ ((tk f =? sFILE) || (tk f =? sTEXTFILE)) = true) by (destruct K as [-> | ->]; split; reflexivity).
  destruct X as (-> & ->).
  rewrite (stack_ref_eq lev oLDS (tsym f) x c); [|cbn; tauto|exact Lv|exact Of|exact G|exact Ad].
  rewrite append_code, (get_code c f rest _ Tk). reflexivity.
Qed.

Lemma fcode_range p : 0 <= fcode p <= 65535. Proof. destruct p; vm_compute; split; discriminate. Qed.
Lemma fcode2_range p : 0 <= fcode2 p <= 65535. Proof. destruct p; vm_compute; split; discriminate. Qed.

Lemma filed : forall lev outx outf ts x p w,
  gfile lev outx ts x p w -> sLevel outf = vlev outx -> vOffset outf = voff outx -> vty outx = xWord -> addressable lev outx ->
  exists code,
    (forall c rest n, toks c = ts ++ rest -> (length ts = 1%nat -> tk (hd eoftok rest) <> tLPAREN) -> g_level c = lev -> (4 * length (toks c) + 4 <= n)%nat ->
       exists c', file_statement outf n c = ADone c' /\ errorless c c' rest code) /\
    operates lev code (2 * Z.of_nat (length ts)) x p w.
Proof.
  intros lev outx outf ts x p w G Lv Of To Ad.
  destruct G as [a b f x d p A1 A2 B Nf Af D|a b f x e us w d p A1 A2 Q B Nf Af E Gw Tw Aw D|a p A1 A2 Q].
  - exists ([refer lev oLDS x] ++ [io_code (fcode p)]). split.
    + intros c rest n Tk _ L F. cbn [app] in Tk. exists (after c rest ([refer lev oLDS x] ++ [io_code (fcode p)])). split; [|apply after_errorless].
      assert (Cu : cur c = a) by (unfold cur; rewrite Tk; reflexivity).
      assert (Tc : token c = tSTDPROC) by (unfold token; rewrite Cu; exact A1).
      unfold file_statement. rewrite Tc, Cu, A2. cbn [Z.eqb Pos.eqb negb tSTDPROC].
      assert (FP : file_proc outf (fcode p) c = ADone (after c rest ([refer lev oLDS x] ++ [io_code (fcode p)]))).
      { unfold file_proc. rewrite (get_at c a _ Tk), token_after. cbn [hd]. rewrite B, Z.eqb_refl, get_after.
        destruct (file_any lev f x (d :: rest) (after c (f :: d :: rest) []) outf Nf Af eq_refl L) as (bb & ->).
        rewrite io_op_eq by apply fcode_range. rewrite append_after. unfold expect. rewrite token_after. cbn [hd]. rewrite D, Z.eqb_refl, get_after, after_after. reflexivity. }
      assert (OP : forall c2, open_proc outf (fcode p) c2 n c = ADone (after c rest ([refer lev oLDS x] ++ [io_code (fcode p)]))).
      { intros c2. unfold open_proc. rewrite (get_at c a _ Tk), token_after. cbn [hd]. rewrite B, Z.eqb_refl, get_after.
        destruct (file_any lev f x (d :: rest) (after c (f :: d :: rest) []) outf Nf Af eq_refl L) as (bb & ->).
        rewrite token_after. cbn [hd]. rewrite D. change (tRPAREN =? tCOMMA) with false. cbv iota.
        rewrite io_op_eq by apply fcode_range. rewrite append_after. unfold expect. rewrite token_after. cbn [hd]. rewrite D, Z.eqb_refl, get_after, after_after. reflexivity. }
      destruct p; cbn [fword Z.eqb Pos.eqb txPAGE txRESET txREWRITE txAPPEND txCLOSEFILE txFLUSH]; first [exact FP|apply OP].
    + intros env size e0 s t R. apply operates_file; [apply Nf|]. eapply room_mono; [exact R|cbn [length]; lia].
  - destruct (expr_after lev us w xInteger xInteger Gw Tw Aw) as (cw & C & R). pose proof (expr_tokens _ _ Gw) as Lus.
    exists ([refer lev oLDS x] ++ cw ++ [io_code (fcode2 p)]). split.
    + intros c rest n Tk _ L F. cbn [app] in Tk. rewrite <- app_assoc in Tk. cbn [app] in Tk.
      exists (after c rest ([refer lev oLDS x] ++ cw ++ [io_code (fcode2 p)])). split; [|apply after_errorless].
      assert (Cu : cur c = a) by (unfold cur; rewrite Tk; reflexivity).
      assert (Tc : token c = tSTDPROC) by (unfold token; rewrite Cu; exact A1).
      unfold file_statement. rewrite Tc, Cu, A2. cbn [Z.eqb Pos.eqb negb tSTDPROC].
      assert (OP : forall c1, open_proc outf c1 (fcode2 p) n c = ADone (after c rest ([refer lev oLDS x] ++ cw ++ [io_code (fcode2 p)]))).
      { intros c1. unfold open_proc. rewrite (get_at c a _ Tk), token_after. cbn [hd]. rewrite B, Z.eqb_refl, get_after.
        destruct (file_any lev f x (e :: us ++ d :: rest) (after c (f :: e :: us ++ d :: rest) []) outf Nf Af eq_refl L) as (bb & ->).
        rewrite token_after. cbn [hd]. rewrite E, Z.eqb_refl, get_after.
        rewrite (C _ (d :: rest) n); [|reflexivity|apply ended_mark; rewrite D; cbn; tauto|exact L|].
        2:{ rewrite after_toks. rewrite Tk in F. cbn [length] in F. lia. }
        rewrite io_op_eq by apply fcode2_range. rewrite append_after. unfold expect. rewrite token_after. cbn [hd]. rewrite D, Z.eqb_refl, get_after, !after_after. cbn [app]. rewrite <- ?app_assoc. reflexivity. }
      destruct Q as [-> | ->]; cbn [fword Z.eqb Pos.eqb txPAGE txRESET txREWRITE]; apply OP.
    + intros env size e0 s t Rm. apply (operates_size lev x p w cw (2 * Z.of_nat (length us))); [apply Nf|exact Q|lia| |].
      * intros env' z V. exact (proj2 (R env' z V)).
      * eapply room_mono; [exact Rm|]. cbn [length]. rewrite app_length. cbn [length]. lia.
  - exists ([refer lev oLDS outx] ++ [io_code (fcode p)]). split.
    + intros c rest n Tk Np L F. cbn [app] in Tk. specialize (Np eq_refl).
      exists (after c rest ([refer lev oLDS outx] ++ [io_code (fcode p)])). split; [|apply after_errorless].
      assert (Cu : cur c = a) by (unfold cur; rewrite Tk; reflexivity).
      assert (Tc : token c = tSTDPROC) by (unfold token; rewrite Cu; exact A1).
      unfold file_statement. rewrite Tc, Cu, A2. cbn [Z.eqb Pos.eqb negb tSTDPROC].
      assert (FP : file_proc outf (fcode p) c = ADone (after c rest ([refer lev oLDS outx] ++ [io_code (fcode p)]))).
      { unfold file_proc. rewrite (get_at c a _ Tk), token_after. replace (tk (hd eoftok rest) =? tLPAREN) with false by lia.
        rewrite (stack_ref_eq lev oLDS outf outx); [|cbn; tauto|exact Lv|exact Of|exact L|exact Ad].
        rewrite append_after, io_op_eq by apply fcode_range. rewrite append_after. reflexivity. }
      destruct Q as [-> | ->]; exact FP.
    + intros env size e0 s t R. apply operates_file; [exact To|]. eapply room_mono; [exact R|cbn [length]; lia].
Qed.
