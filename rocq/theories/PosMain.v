(** FilePos, FileSize and Seek. *)

From Coq Require Import ZArith Bool List Lia ZifyBool.
From Verif Require Import Words WordLemmas State StateLemmas Opcodes EncodeModel SetModel LongModel Machine VmSpec
  VmProofs MemProofs MultiProofs ExprModel ExprSpec ExprRun ExprOps ExprLoad ExprProofs ExprMain ExprParse StmtAccept ActAccept
  StmtModel ArrModel ArrProofs ArrCases ActModel WriteModel WriteSpec WriteRun WriteProofs WriteMain FileModel FileSpec FileMain PosModel PosSpec.
From Verif Require SysioModel SysioSpec SysioProofs SysioText StringSpec StringProofs.
Import ListNotations.
Open Scope Z_scope.
Local Ltac Zify.zify_post_hook ::= Z.div_mod_to_equations.

(** ** FilePos and FileSize *)

Lemma toks_io o c : toks (io_op o c) = toks c. Proof. apply toks_data. Qed.
Lemma ne_io o c : (ne c <= ne (io_op o c))%nat. Proof. apply ne_data. Qed.
Lemma errs_io o c : 0 <= o <= 65535 -> errs (io_op o c) = errs c.
Proof. intros O. rewrite io_op_eq by exact O. reflexivity. Qed.

Lemma rejected : forall ts, gpos ts -> forall c rest, toks c = ts ++ rest ->
  exists c', pos_function c = Done xLongInteger c' /\ toks c' = rest /\ errs c' = errs c ++ [eINVFILETYPE].
Proof.
  intros ts (a & b & f & d & x & -> & A1 & A2 & B & Nf & D) c rest Tk. cbn [app] in Tk.
  assert (P : forall o, 0 <= o <= 65535 -> exists c', pos_func o c = Done xLongInteger c' /\ toks c' = rest /\ errs c' = errs c ++ [eINVFILETYPE]).
  { intros o O. unfold pos_func, expect. unfold token at 1, cur at 1. cbn [toks getToken]. rewrite Tk. cbn [tl hd]. rewrite B, Z.eqb_refl.
    unfold strict_number. set (c3 := getToken (getToken (getToken c))).
    assert (T3 : toks c3 = d :: rest) by (unfold c3; cbn [toks getToken]; rewrite Tk; reflexivity).
    assert (T : token c3 = tRPAREN) by (unfold token, cur; rewrite T3; exact D).
    rewrite T. change (existsb (Z.eqb tRPAREN) [sPOINTER; sVAR_PARM; sARRAY]) with false. change ((tRPAREN =? sFILE) || (tRPAREN =? sTEXTFILE)) with false. cbv iota.
    cbn [negb error_if]. rewrite (token_toks (error eINVFILETYPE c3)) by apply toks_io. change (token (error eINVFILETYPE c3)) with (token c3). rewrite T, Z.eqb_refl.
    eexists. split; [reflexivity|]. split.
    - cbn [toks getToken]. rewrite toks_io. cbn [toks error]. rewrite T3. reflexivity.
    - cbn [errs getToken]. rewrite errs_io by exact O. reflexivity. }
  assert (Cu : cur c = a) by (unfold cur; rewrite Tk; reflexivity).
  unfold pos_function. unfold token. rewrite Cu, A1. cbn [Z.eqb Pos.eqb negb tSTDFUNC].
  destruct A2 as [-> | ->]; apply P; vm_compute; split; discriminate.
Qed.

(** What is accepted contains a token more. *)
Lemma superfluous : forall c t c', pos_function c = Done t c' -> errs c' = errs c ->
  exists a b u f d, toks c = a :: b :: u :: f :: d :: toks c' /\ tk b = tLPAREN /\ tk f = sTEXTFILE /\ tk d = tRPAREN.
Proof.
  intros c t c' H E0.
  assert (P : exists o, pos_func o c = Done t c').
  { unfold pos_function in H. destruct (negb (token c =? tSTDFUNC)); [discriminate|].
    destruct (tsub (cur c) =? txFILEPOS); [eexists; exact H|]. destruct (tsub (cur c) =? txFILESIZE); [eexists; exact H|discriminate]. }
  destruct P as (o & P). clear H. unfold pos_func in P.
  assert (E : ne c' = ne c) by (unfold ne; rewrite E0; reflexivity).
  assert (X : forall k c, token c = k -> k = tLPAREN \/ k = tRPAREN \/ k = sTEXTFILE -> exists y, toks c = y :: tl (toks c) /\ tk y = k).
  { intros k c1 Y Z. unfold token, cur in Y. destruct (toks c1) as [|y m]; [cbn in Y; subst k; destruct Z as [Z|[Z|Z]]; discriminate Z|]. exists y. split; [reflexivity|exact Y]. }
  set (c2 := expect tLPAREN eLPAREN (getToken c)) in P.
  assert (N2 : (ne c <= ne c2)%nat) by (unfold c2; pose proof (ne_expect tLPAREN eLPAREN (getToken c)) as Q; rewrite ne_get in Q; exact Q).
  revert P. unfold strict_number. destruct (existsb _ _); [discriminate|].
  destruct ((token (getToken c2) =? sFILE) || (token (getToken c2) =? sTEXTFILE)) eqn:F.
  - set (c4 := getToken (stack_ref oLDS (tsym (cur (getToken c2))) (getToken c2))).
    assert (N4 : (ne c2 <= ne c4)%nat) by (unfold c4; rewrite ne_get; pose proof (ne_ref oLDS (tsym (cur (getToken c2))) (getToken c2)) as Q; rewrite ne_get in Q; exact Q).
    assert (T4 : toks c4 = tl (tl (toks c2))) by (unfold c4; cbn [toks getToken]; rewrite toks_ref; reflexivity).
    set (c5 := error_if (negb (token (getToken c2) =? sTEXTFILE)) eINVFILE c4).
    assert (T5 : toks c5 = toks c4) by apply toks_error_if.
    pose proof (ne_error_if (negb (token (getToken c2) =? sTEXTFILE)) eINVFILE c4) as N5. fold c5 in N5.
    pose proof (ne_io o c5) as N6. pose proof (ne_expect tRPAREN eRPAREN (io_op o c5)) as N7.
    intros [= _ <-].
    assert (K2 : token (getToken c) = tLPAREN).
    { destruct (Z.eqb_spec (token (getToken c)) tLPAREN) as [Q|Q]; [exact Q|].
      assert (ne c2 = S (ne c)) by (unfold c2, expect; rewrite (proj2 (Z.eqb_neq _ _) Q), ne_error; reflexivity). lia. }
    assert (K4 : token (getToken c2) = sTEXTFILE).
    { destruct (Z.eqb_spec (token (getToken c2)) sTEXTFILE) as [Q|Q]; [exact Q|].
      assert (ne c5 = S (ne c4)) by (unfold c5; apply ne_error_true). lia. }
    assert (K6 : token (io_op o c5) = tRPAREN).
    { destruct (Z.eqb_spec (token (io_op o c5)) tRPAREN) as [Q|Q]; [exact Q|]. unfold expect in E. rewrite (proj2 (Z.eqb_neq _ _) Q), ne_error in E. lia. }
    assert (T2 : toks c2 = tl (toks (getToken c))) by (unfold c2, expect; rewrite K2; reflexivity).
    destruct (X _ _ K2 ltac:(tauto)) as (b & B1 & B2). destruct (X _ _ K4 ltac:(tauto)) as (f & F1 & F2). destruct (X _ _ K6 ltac:(tauto)) as (d & D1 & D2).
    unfold expect. rewrite K6, Z.eqb_refl. cbn [toks getToken] in *. rewrite toks_io, T5, T4 in *.
    destruct (toks c) as [|a [|b' [|u [|f' [|d' r]]]]]; cbn [tl] in *; rewrite ?T2 in *; cbn [tl] in *; try discriminate.
    injection B1 as <-. injection F1 as <-. injection D1 as <-. exists a, b', u, f', d'. auto.
  - intros [= _ <-]. exfalso. revert E. cbn [negb error_if].
    pose proof (ne_expect tRPAREN eRPAREN (io_op o (error eINVFILETYPE (getToken c2)))) as N7.
    pose proof (ne_io o (error eINVFILETYPE (getToken c2))) as N6. rewrite ne_error, ne_get in N6. lia.
Qed.

(** ** Seek *)

Lemma strict_any lev f x rest c : names_file f x -> addressable lev x -> toks c = f :: rest -> g_level c = lev ->
  exists b, strict_number c = Some (b, after c rest [refer lev oLDS x]).
Proof.
  intros (K & Lv & Of & _) Ad Tk G. unfold strict_number.
  assert (Cu : cur c = f) by (unfold cur; rewrite Tk; reflexivity).
  assert (Tc : token c = tk f) by (unfold token; rewrite Cu; reflexivity).
  rewrite Tc, Cu. exists (tk f =? sTEXTFILE).
  assert (X : existsb (Z.eqb (tk f)) [sPOINTER; sVAR_PARM; sARRAY] = false /\ ((tk f =? sFILE) || (tk f =? sTEXTFILE)) = true) by (destruct K as [-> | ->]; split; reflexivity).
  destruct X as (-> & ->).
  rewrite (stack_ref_eq lev oLDS (tsym f) x c); [|cbn; tauto|exact Lv|exact Of|exact G|exact Ad].
  rewrite append_code, (get_code c f rest _ Tk). reflexivity.
Qed.

Lemma exchanged : forall lev ts x w, gseek lev ts x w ->
  exists code,
    (forall c rest n, toks c = ts ++ rest -> g_level c = lev -> (4 * length (toks c) + 4 <= n)%nat ->
       exists c', seek_statement n c = ADone c' /\ errorless c c' rest (code ++ [io_code SysioModel.xSEEK])) /\
    forall env z s, evalue env xLongInteger w = Some z -> room s (2 * Z.of_nat (length ts)) ->
      (forall y, In y (x :: evars w) -> located lev s y (env y)) -> 0 <= env x < 8 ->
      exists s' s'' n p, exec_list code s = Ok s' /\ seek_operands s' = Some (n, p, s'') /\ sp s'' = sp s /\
        n = z / 65536 mod 65536 /\ p = z mod 65536 * 65536 + env x /\
        (n = env x /\ p = z mod 4294967296 <-> z = 65537 * env x).
Proof.
  intros lev ts x w G. destruct G as [a b f x e us w d A1 A2 B Nf Af E Gw Tw Aw D].
  destruct (expr_after lev us w xLongInteger xLongInteger Gw Tw Aw) as (cw & C & R). pose proof (expr_tokens _ _ Gw) as Lus.
  exists ([refer lev oLDS x] ++ cw). split.
  - intros c rest n Tk L F. cbn [app] in Tk. rewrite <- app_assoc in Tk. cbn [app] in Tk.
    exists (after c rest (([refer lev oLDS x] ++ cw) ++ [io_code SysioModel.xSEEK])). split; [|apply after_errorless].
    assert (Cu : cur c = a) by (unfold cur; rewrite Tk; reflexivity).
    assert (Tc : token c = tSTDPROC) by (unfold token; rewrite Cu; exact A1).
    unfold seek_statement. rewrite Tc, Cu, A2. cbn [Z.eqb Pos.eqb negb tSTDPROC txSEEK].
    unfold seek_proc. rewrite (get_at c a _ Tk), token_after. cbn [hd]. rewrite B, Z.eqb_refl. cbn [negb error_if]. rewrite get_after.
    destruct (strict_any lev f x (e :: us ++ d :: rest) (after c (f :: e :: us ++ d :: rest) []) Nf Af eq_refl L) as (bb & ->).
    unfold expect at 1. rewrite token_after. cbn [hd]. rewrite E, Z.eqb_refl, get_after.
    rewrite (C _ (d :: rest) n); [|reflexivity|apply ended_mark; rewrite D; cbn; tauto|exact L|].
    2:{ rewrite after_toks. rewrite Tk in F. cbn [length] in F. lia. }
    change (teq xLongInteger xLongInteger) with true. cbn [negb error_if].
    rewrite io_op_eq by (vm_compute; split; discriminate). rewrite append_after. unfold expect. rewrite token_after. cbn [hd]. rewrite D, Z.eqb_refl, get_after, !after_after.
    cbn [app]. rewrite <- ?app_assoc. reflexivity.
  - intros env z s V Rm Lo Bx. destruct (R env z V) as (Rz & Cz).
    assert (Lt : Z.of_nat (length (a :: b :: f :: e :: us ++ [d])) = Z.of_nat (length us) + 5) by (cbn [length]; rewrite app_length; cbn [length]; lia). rewrite Lt in Rm.
    destruct (run_file lev x env s (proj2 (proj2 (proj2 Nf)))) as (s1 & E1 & P1); [eapply room_mono; [exact Rm|lia]|apply Lo; left; reflexivity|exact Bx|].
    destruct (Cz s1) as (s2 & E2 & P2).
    { eapply room_mono; [eapply room_pushed; [exact P1|exact Rm]|cbn [length]; lia]. }
    { intros y Hy. apply (located_mono _ _ _ _ _ _ P1), Lo. right. exact Hy. }
    pose proof (pushed_app _ _ _ _ _ P1 P2) as P3. cbn [app words is32 class_of] in P3. destruct Rm as (R1 & R2 & R3 & R4).
    assert (B2 : 0 <= sp s2 < 65536) by (destruct P3 as (_ & Sp & _); unfold words in Sp; cbn [is32 class_of length] in Sp; lia).
    pose proof (pushed_operands _ _ _ B2 P3) as Ho. unfold words in Ho. cbn [is32 class_of rev app] in Ho.
    exists s2, (discard s2 3), (z / 65536 mod 65536), (z mod 65536 * 65536 + env x).
    split; [rewrite exec_app, E1; exact E2|]. split.
    { unfold seek_operands. StringProofs.start_pops Ho. unfold upop32.
      pose proof (StringProofs.operand_pop _ _ 1%nat _ Ho eq_refl) as Q1. cbn [Z.of_nat Z.add Pos.of_succ_nat Pos.add Pos.succ] in Q1. rewrite Q1. cbn [bindo bindO].
      pose proof (StringProofs.operand_pop _ _ 2%nat _ Ho eq_refl) as Q2. cbn [Z.of_nat Z.add Pos.of_succ_nat Pos.add Pos.succ] in Q2. rewrite Q2. cbn [bindo bindO].
      f_equal. f_equal. f_equal. unfold mk32. lia. }
    split.
    { destruct P3 as (_ & Sp & _). unfold words in Sp. cbn [is32 class_of length] in Sp. unfold discard. cbn [sp with_sp]. rewrite Sp.
      replace (sp s + 2 * Z.of_nat 3 - 2 * 3) with (sp s) by lia. apply u16_small. lia. }
    split; [reflexivity|]. split; [reflexivity|]. unfold inr in Rz. cbn [class_of] in Rz. lia.
Qed.
