(** Read and ReadLn: the statements. *)

From Coq Require Import ZArith Bool List Lia ZifyBool.
From Verif Require Import Words WordLemmas State StateLemmas Opcodes EncodeModel SetModel LongModel Machine VmSpec
  VmProofs MemProofs MultiProofs ExprModel ExprSpec ExprRun ExprOps ExprLoad ExprProofs ExprMain ExprAccept
  StmtModel StmtPlain StmtRun StmtStore ArrModel ArrProofs ActModel ActProofs WriteModel WriteSpec WriteRun WriteProofs WriteMain ReadModel ReadSpec ReadRun.
From Verif Require Import StmtSpec StmtRun.
From Verif Require SysioModel SysioSpec SysioProofs SysioText StringSpec StringProofs.
Import ListNotations.
Open Scope Z_scope.
Local Ltac Zify.zify_post_hook ::= Z.div_mod_to_equations.

Section Statement.
  Variables (lev : Z) (inx : var) (inf : sym).
  Hypotheses (Lv : sLevel inf = vlev inx) (Of : vOffset inf = voff inx) (Ti : vty inx = xWord) (Ad : addressable lev inx).

  (** ** Code *)

  Lemma var_token a x : spells_var a x -> readable_type (vty x) -> tk a = sINT /\ vty x = xInteger \/ tk a = sCHAR /\ vty x = xChar.
  Proof. intros (K & _) [T|T]; rewrite T in K; [left|right]; split; auto. Qed.

  Lemma text_after a x c b rest n : spells_var a x -> readable_type (vty x) -> addressable lev x -> toks c = a :: b :: rest -> g_level c = lev ->
    read_text (S n) c = ADone (after c (b :: rest) (item_code lev x)).
  Proof.
    intros Sp Ty Ax Tk G. unfold read_text. change (simple_op oDUP c) with (append (mkOp oDUP 0 0) c). cbn [pointer_factor].
    change (append (mkOp oDUP 0 0) c) with (after c (toks c) [mkOp oDUP 0 0]). set (c1 := after c (toks c) [mkOp oDUP 0 0]).
    assert (T1 : toks c1 = a :: b :: rest) by exact Tk.
    assert (Cu : cur c1 = a) by (unfold cur; rewrite T1; reflexivity).
    pose proof Sp as (S1 & S2 & S3 & _).
    assert (K : map_type (token c1) = Some (vty x)) by (unfold token; rewrite Cu, S1; destruct Ty as [->| ->]; reflexivity).
    rewrite K, Cu, (las_ref_eq lev (tsym a) x c1 S2 S3 G Ax). rewrite append_code, (get_code c1 a (b :: rest) _ T1).
    f_equal. destruct Ty as [Ty|Ty]; rewrite Ty; change (teq xInteger xInteger) with true; change (teq xChar xInteger) with false; change (teq xChar xChar) with true; cbv iota;
      rewrite io_op_eq by (vm_compute; split; discriminate); rewrite append_after; unfold c1; rewrite after_after; unfold item_code; rewrite Ty; reflexivity.
  Qed.

  Lemma vars_after ts ys : gvars lev ts ys -> forall c b rest n, toks c = ts ++ b :: rest -> tk b = tRPAREN -> g_level c = lev -> (length (toks c) + 1 <= n)%nat ->
    read_common n c = ADone (after c (b :: rest) (flat_map (item_code lev) ys)).
  Proof.
    induction 1 as [a x Sp Ty Ax|a x d ts ys Sp Ty Ax Cm G IH]; intros c b rest n Tk Tb L F; cbn [app] in Tk.
    - destruct n as [|[|n]]; [lia|rewrite Tk in F; cbn [length] in F; lia|]. cbn [read_common].
      rewrite (text_after a x c b rest n Sp Ty Ax Tk L). cbn [binda]. rewrite token_after. cbn [hd]. rewrite Tb.
      change ((tRPAREN =? tCOLON) || (tRPAREN =? tCOMMA)) with false. cbv iota. cbn [flat_map]. rewrite app_nil_r. reflexivity.
    - destruct n as [|[|n]]; [lia|rewrite Tk in F; cbn [length] in F; lia|]. cbn [read_common].
      rewrite (text_after a x c d (ts ++ b :: rest) n Sp Ty Ax Tk L). cbn [binda]. rewrite token_after. cbn [hd]. rewrite Cm.
      change ((tCOMMA =? tCOLON) || (tCOMMA =? tCOMMA)) with true. cbv iota. rewrite get_after.
      change (binda (read_text n ?c) ?k) with (read_common (S n) c).
      rewrite (IH _ b rest (S n)); [rewrite after_after; reflexivity|reflexivity|exact Tb|exact L|].
      rewrite after_toks. rewrite Tk in F. cbn [length] in F. lia.
  Qed.

  Lemma vars_plain ts ys c rest : gvars lev ts ys -> toks c = ts ++ rest ->
    ~ In (token c) [sARRAY; sFILE; sTEXTFILE; sPOINTER; WriteModel.sVAR_PARM; tCOMMA; tRPAREN].
  Proof.
    intros G Tk. unfold token, cur. rewrite Tk.
    assert (K : tk (hd eoftok (ts ++ rest)) = sINT \/ tk (hd eoftok (ts ++ rest)) = sCHAR).
    { destruct G as [a x Sp Ty _|a x b us ys Sp Ty _ _ _]; cbn [app hd]; destruct (var_token a x Sp Ty) as [(K & _)|(K & _)]; auto. }
    destruct K as [-> | ->]; vm_compute; intuition discriminate.
  Qed.

  (** ** Execution *)

  Definition closing (ln : bool) : opType := if ln then io_code SysioModel.xREADLN else mkOp oINDS 0 65534.

  (** The statement's code: [ys] are read from the file [x]. *)
  Definition statement_code (x : var) (ys : list var) (ln : bool) : list opType := [refer lev oLDS x] ++ flat_map (item_code lev) ys ++ [closing ln].

  Lemma readln_ok e s t n y (r : list Z) (pending : bool) : StringSpec.operands s [n] -> SysioSpec.readable t n y -> SysioModel.e_eoln (SysioModel.ent t n) = pending ->
    (pending = true /\ r = SysioModel.rest y \/ pending = false /\ exists l, SysioModel.rest y = (l ++ [10]) ++ r /\ ~ In 10 l) ->
    exists t', SysioModel.sysio e s t SysioModel.xREADLN = SysioModel.SR eNOERROR (discard s 1) t' /\ read_upto t t' n y r false.
  Proof.
    intros Ho R He H.
    change (SysioModel.sysio e s t SysioModel.xREADLN) with (SysioModel.sbind (pop s) (fun '(n, s) => SysioModel.read_ln s t n)).
    StringProofs.start_pops Ho. cbn [SysioModel.sbind]. unfold SysioModel.read_ln.
    rewrite (SysioText.readable_check _ _ _ R). cbv zeta. cbn [negb Z.eqb eNOERROR]. rewrite He.
    destruct R as (A & B & C & D).
    destruct H as [(-> & ->)|(-> & l & E & N)].
    - eexists. split; [reflexivity|]. split; [|split].
      + unfold SysioSpec.readable. rewrite SysioText.ent_put' by auto. cbn [SysioModel.set_eoln SysioModel.e_str SysioModel.e_mode].
        split; [exact A|]. split; [unfold SysioModel.put; cbn [SysioModel.ftab]; rewrite SysioProofs.set_nth_length; exact B|].
        split; [rewrite C; destruct y; reflexivity|exact D].
      + rewrite SysioText.ent_put' by auto. reflexivity.
      + intros m M1 M2. unfold SysioModel.ent, SysioModel.put. cbn [SysioModel.ftab]. apply SysioProofs.set_nth_other. lia.
    - assert (X : SysioModel.the_stream (SysioModel.ent t n) = y) by (unfold SysioModel.the_stream; rewrite C; reflexivity). rewrite X, E.
      assert (K : SysioModel.skip_line ((l ++ [10]) ++ r) = (r, false)).
      { clear - N. induction l as [|c l IH]; [reflexivity|]. cbn [app SysioModel.skip_line].
        replace (c =? 10) with false by (symmetry; apply Z.eqb_neq; intros ->; apply N; left; reflexivity).
        apply IH. intros Q. apply N. right. exact Q. }
      rewrite K. eexists. split; [reflexivity|]. split; [|split].
      + unfold SysioSpec.readable, SysioModel.put_stream. rewrite SysioText.ent_put' by auto.
        split; [exact A|]. split; [unfold SysioModel.put; cbn [SysioModel.ftab]; rewrite SysioProofs.set_nth_length; exact B|].
        split; [cbn; rewrite orb_false_r; reflexivity|exact D].
      + unfold SysioModel.put_stream. rewrite SysioText.ent_put' by auto. exact He.
      + intros m M1 M2. unfold SysioModel.ent, SysioModel.put_stream, SysioModel.put. cbn [SysioModel.ftab]. apply SysioProofs.set_nth_other. lia.
  Qed.

  Section Places.
    Variables (xs : list var) (adr : var -> Z) (links : Z -> Prop) (base : Z) (s0 : st).
    Hypothesis P : placed lev xs adr links base s0.
    Hypothesis Even : c_ssz (cf s0) mod 2 = 0.
    Notation ready := (ready xs adr links base s0).
    Notation moves := (moves xs adr).

    (** The last instruction *)
    Lemma run_closing e s s1 t n y q r r1 (ln pending : bool) q' : ready s r -> room s 3 -> moves s s1 [n] r1 ->
      SysioSpec.readable t n y -> SysioModel.e_eoln (SysioModel.ent t n) = pending -> SysioModel.rest y = q ->
      (if ln then (pending = true /\ q' = q \/ pending = false /\ exists l, q = (l ++ [10]) ++ q' /\ ~ In 10 l) else q' = q) ->
      exists s2 t2, exec_io e [closing ln] s1 t = Some (s2, t2) /\ moves s s2 [] r1 /\ read_upto t t2 n y q' (if ln then false else pending).
    Proof.
      intros Rd (R1 & R2 & R3 & R4) M Rb He Hq H. pose proof M as (A1 & Sp & Wd & _). cbn [length] in Sp.
      assert (Top : forall s2, same_regs s1 s2 -> sp s2 = sp s1 - 2 -> (forall i, rd s2 i = rd s1 i) -> moves s s2 [] r1).
      { intros s2 S1 S2 S3. apply (moves_top lev xs adr links base s0 P Even s s1 s2 [] [n] [] r r1 Rd M). cbn [length].
        split; [exact S1|]. split; [cbn [length]; lia|]. split; [intros [|k] v K; discriminate K|]. intros i _. apply S3. }
      destruct ln; cbn [closing].
      - assert (Ho : StringSpec.operands s1 [n]).
        { split; [lia|]. intros [|k] w K; cbn in K; [injection K as <-|destruct k; discriminate K].
          unfold tos. rewrite <- (Wd 0%nat n eq_refl). f_equal. lia. }
        rewrite <- Hq in H. destruct (readln_ok e s1 t n y q' pending Ho Rb He H) as (t' & X & Y).
        exists (with_pc (discard s1 1) (u16 (pc s1 + 3))), t'. split; [|split; [|exact Y]].
        + cbn [exec_io]. unfold io_insn, io_code. cbn [op arg2]. rewrite Z.eqb_refl, X. reflexivity.
        + apply Top; [repeat split| |reflexivity]. unfold discard. cbn [sp with_pc with_sp]. rewrite u16_small by lia. lia.
      - subst q'. exists (with_pc (with_sp s1 (u16 (sp s1 + -2))) (u16 (pc s1 + 3))), t. split; [|split].
        + apply exec_io_ok. cbn [exec_list]. change (exec_insn s1 (mkOp oINDS 0 65534)) with (next 3 (exec24 INDS s1 65534)). reflexivity.
        + apply Top; [repeat split| |reflexivity]. cbn [sp with_pc with_sp]. rewrite u16_small by lia. lia.
        + split; [|split; [exact He|auto]]. rewrite <- Hq. destruct y. exact Rb.
    Qed.

    Lemma run_statement e s t y text q r r' x ys ln : vty x = xWord -> In x xs -> (forall z, In z ys -> In z xs /\ readable_type (vty z)) ->
      ready s r -> room s 3 -> SysioSpec.readable t (r x) y -> SysioModel.e_fail e = false -> SysioModel.rest y = text ++ q ->
      consumes r (SysioModel.e_eoln (SysioModel.ent t (r x))) ys ln text r' ->
      exists s' t', exec_io e (statement_code x ys ln) s t = Some (s', t') /\ moves s s' [] r' /\ read_upto t t' (r x) y q (negb ln).
    Proof.
      intros Tx Ix I Rd Rm Rb F E Co.
      destruct (run_file lev x r s Tx) as (s1 & E1 & P1).
      { eapply room_mono; [exact Rm|lia]. }
      { apply (ready_located lev xs adr links base s0 P Even); assumption. }
      { apply Rb. }
      pose proof (moves_pushed lev xs adr links base s0 P Even s s1 _ r Rd P1) as M1.
      unfold statement_code. rewrite exec_io_app, (exec_io_ok e t _ _ _ E1), exec_io_app.
      destruct Co as [ys ln ls r' Ne Tk|Pe|l Pe Nl].
      - destruct (run_items lev xs adr links base s0 P Even e s (r x) ys I s1 r r t y ls q r' Rd Rm M1 Rb F E Tk Ne) as (s2 & t2 & E2 & M2 & (B1 & B2 & B3)).
        rewrite E2. destruct (run_closing e s s2 t2 (r x) _ q r r' ln true q Rd Rm M2 B1 B2 eq_refl) as (s3 & t3 & E3 & M3 & (C1 & C2 & C3)).
        { destruct ln; [left; split; reflexivity|reflexivity]. }
        exists s3, t3. split; [exact E3|]. split; [exact M3|]. split; [exact C1|]. split; [rewrite C2; destruct ln; reflexivity|].
        intros m H1 H2. rewrite C3, B3 by assumption. reflexivity.
      - cbn [flat_map exec_io]. fold (exec_io e).
        exact (run_closing e s s1 t (r x) y q r r true true q Rd Rm M1 Rb Pe E (or_introl (conj eq_refl eq_refl))).
      - cbn [flat_map exec_io].
        exact (run_closing e s s1 t (r x) y _ r r true false q Rd Rm M1 Rb Pe E (or_intror (conj eq_refl (ex_intro _ l (conj eq_refl Nl))))).
    Qed.
  End Places.

  (** ** Statements *)

  Lemma statement ts x ys ln : gread lev inx ts x ys ln ->
    vty x = xWord /\ (forall z, In z ys -> readable_type (vty z)) /\
    forall c rest n, toks c = ts ++ rest -> (length ts = 1%nat -> tk (hd eoftok rest) <> tLPAREN) -> g_level c = lev -> (length (toks c) <= n)%nat ->
       read_statement inf n c = ADone (after c rest (statement_code x ys ln)).
  Proof.
    assert (Types : forall ts ys, gvars lev ts ys -> forall z, In z ys -> readable_type (vty z)).
    { induction 1 as [a y Sp Ty Ax|a y d us zs Sp Ty Ax Cm G IH]; intros z [<-|Hz]; auto; destruct Hz. }
    assert (Paren : forall a b us d (l : bool) zs y vs c rest n, tk a = tSTDPROC -> tsub a = (if l then txREADLN else txREAD) -> tk b = tLPAREN -> tk d = tRPAREN ->
      gvars lev vs zs -> (us = vs /\ y = inx \/ exists f e, us = f :: e :: vs /\ spells_file f y /\ addressable lev y /\ tk e = tCOMMA) ->
      toks c = (a :: b :: us ++ [d]) ++ rest -> g_level c = lev -> (length (toks c) <= n)%nat ->
      read_statement inf n c = ADone (after c rest (statement_code y zs l))).
    { intros a b us d l zs y vs c rest n A1 A2 B D G H Tk L F. cbn [app] in Tk. rewrite <- app_assoc in Tk. cbn [app] in Tk.
      assert (Cu : cur c = a) by (unfold cur; rewrite Tk; reflexivity).
      assert (Tc : token c = tSTDPROC) by (unfold token; rewrite Cu; exact A1).
      unfold read_statement. rewrite Tc, Cu, A2. cbn [Z.eqb Pos.eqb negb tSTDPROC].
      set (c1 := after c (us ++ d :: rest) []).
      assert (X : token c1 <> tRPAREN /\ exists c2, file_number inf c1 = Some (true, c2) /\
        read_common n (if token c2 =? tCOMMA then getToken c2 else c2) = ADone (after c1 (d :: rest) ([refer lev oLDS y] ++ flat_map (item_code lev) zs))).
      { destruct H as [(-> & ->)|(f & e & -> & Sf & Af & Ke)].
        - assert (N : ~ In (token c1) [sARRAY; sFILE; sTEXTFILE; sPOINTER; WriteModel.sVAR_PARM; tCOMMA; tRPAREN]) by exact (vars_plain vs zs c1 (d :: rest) G eq_refl).
          split; [intros Q; apply N; rewrite Q; cbn; tauto|].
          exists (after c1 (toks c1) [refer lev oLDS inx]). split; [apply file_default; assumption|].
          rewrite token_after. change (tk (hd eoftok (toks c1))) with (token c1). rewrite (not_in_eqb _ (token c1) tCOMMA N) by (cbn; tauto).
          rewrite (vars_after vs zs G _ d rest n); [rewrite after_after; reflexivity|reflexivity|exact D|exact L|].
          rewrite after_toks. unfold c1. rewrite after_toks. rewrite Tk in F. cbn [length] in F. lia.
        - split; [unfold token, cur, c1; rewrite after_toks; cbn [app hd]; rewrite (proj1 Sf); discriminate|].
          exists (after c1 (e :: vs ++ d :: rest) [refer lev oLDS y]). split; [exact (file_var (fun _ => []) lev f y (e :: vs ++ d :: rest) c1 Sf Af eq_refl L inf)|].
          rewrite token_after. cbn [hd]. rewrite Ke, Z.eqb_refl, get_after.
          rewrite (vars_after vs zs G _ d rest n); [rewrite after_after; reflexivity|reflexivity|exact D|exact L|].
          rewrite after_toks. rewrite Tk in F. cbn [app length] in F. lia. }
      destruct X as (Nr & c2 & Fn & Rc). assert (Nr' : (token c1 =? tRPAREN) = false) by lia.
      destruct l; cbn [Z.eqb Pos.eqb txREAD txREADLN].
      - unfold readln_proc. rewrite (get_at c a _ Tk), token_after. cbn [hd]. rewrite B, Z.eqb_refl, get_after. fold c1. rewrite Nr', Fn. cbn [negb error_if].
        rewrite Rc. cbn [binda]. unfold expect. rewrite token_after. cbn [hd]. rewrite D, Z.eqb_refl, get_after. cbn [binda].
        rewrite io_op_eq by (vm_compute; split; discriminate). rewrite append_after. unfold c1. rewrite after_after. unfold statement_code, closing. rewrite <- !app_assoc. reflexivity.
      - unfold read_proc. cbv zeta. rewrite (get_at c a _ Tk).
        assert (Ex : expect tLPAREN eLPAREN (after c (b :: us ++ d :: rest) []) = c1) by (unfold expect; rewrite token_after; cbn [hd]; rewrite B, Z.eqb_refl, get_after; reflexivity).
        rewrite Ex, Nr'. cbn [error_if].
        rewrite Fn, Rc. cbn [binda]. rewrite inds_eq, append_after. unfold expect. rewrite token_after. cbn [hd]. rewrite D, Z.eqb_refl, get_after.
        unfold c1. rewrite after_after. unfold statement_code, closing. rewrite <- !app_assoc. reflexivity. }
    intros [a b us zs d A1 A2 B G D|a b f y e0 us zs d A1 A2 B Sf Af E0 G D|a A1 A2|a b d A1 A2 B D|a b us zs d A1 A2 B G D|a b f y e0 us zs d A1 A2 B Sf Af E0 G D].
    - split; [exact Ti|]. split; [eapply Types; eassumption|]. intros c rest n Tk _ L F. apply (Paren a b us d false zs inx us); auto.
    - split; [apply Sf|]. split; [eapply Types; eassumption|]. intros c rest n Tk _ L F. apply (Paren a b (f :: e0 :: us) d false zs y us); auto. right. exists f, e0. auto.
    - split; [exact Ti|]. split; [intros z []|]. intros c rest n Tk Np L F. cbn [app] in Tk. specialize (Np eq_refl).
      assert (Cu : cur c = a) by (unfold cur; rewrite Tk; reflexivity).
      unfold read_statement. replace (token c) with tSTDPROC by (unfold token; rewrite Cu; auto). rewrite Cu, A2. cbn [Z.eqb Pos.eqb negb txREAD txREADLN tSTDPROC].
      unfold readln_proc. rewrite (get_at c a _ Tk), token_after. replace (tk (hd eoftok rest) =? tLPAREN) with false by lia.
      rewrite (stack_ref_eq lev oLDS inf inx); [|cbn; tauto|exact Lv|exact Of|exact L|exact Ad]. rewrite append_after. cbn [binda].
      rewrite io_op_eq by (vm_compute; split; discriminate). rewrite append_after. reflexivity.
    - split; [exact Ti|]. split; [intros z []|]. intros c rest n Tk _ L F. cbn [app] in Tk.
      assert (Cu : cur c = a) by (unfold cur; rewrite Tk; reflexivity).
      unfold read_statement. replace (token c) with tSTDPROC by (unfold token; rewrite Cu; auto). rewrite Cu, A2. cbn [Z.eqb Pos.eqb negb txREAD txREADLN tSTDPROC].
      unfold readln_proc. rewrite (get_at c a _ Tk), token_after. cbn [hd]. rewrite B, Z.eqb_refl, get_after, token_after. cbn [hd]. rewrite D, Z.eqb_refl.
      rewrite (stack_ref_eq lev oLDS inf inx); [|cbn; tauto|exact Lv|exact Of|exact L|exact Ad]. rewrite append_after. cbn [binda].
      unfold expect. rewrite token_after. cbn [hd]. rewrite D, Z.eqb_refl, get_after. cbn [binda].
      rewrite io_op_eq by (vm_compute; split; discriminate). rewrite append_after. reflexivity.
    - split; [exact Ti|]. split; [eapply Types; eassumption|]. intros c rest n Tk _ L F. apply (Paren a b us d true zs inx us); auto.
    - split; [apply Sf|]. split; [eapply Types; eassumption|]. intros c rest n Tk _ L F. apply (Paren a b (f :: e0 :: us) d true zs y us); auto. right. exists f, e0. auto.
  Qed.
End Statement.
