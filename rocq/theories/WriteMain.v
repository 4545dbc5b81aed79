(** Write and WriteLn: the statements. *)

From Coq Require Import ZArith Bool List Lia ZifyBool.
From Verif Require Import Words WordLemmas State StateLemmas Opcodes EncodeModel SetModel LongModel Machine VmSpec
  LongSpec VmProofs MemProofs MultiProofs LongProofs CallProofs ExprModel ExprSpec ExprRun ExprOps ExprLoad ExprProofs ExprMain ExprAccept ExprTotal
  StmtModel ArrProofs ArrCases WriteModel WriteSpec WriteRun WriteProofs.
From Verif Require SysioModel SysioSpec StringProofs.
Import ListNotations.
Open Scope Z_scope.
Local Ltac Zify.zify_post_hook ::= Z.div_mod_to_equations.

Lemma needs_size is : needs is = strings_size is.
Proof.
  unfold needs, strings_size. induction is as [|i is IH]; [reflexivity|]. cbn [fold_right]. rewrite IH.
  destruct i; cbn [need]; lia.
Qed.

Lemma wrote_got t t' n x l : SysioSpec.writable t n x -> wrote t t' n x l -> got t t' n l.
Proof.
  intros (_ & _ & A & _) (B & C). split; [|exact C]. intros y (_ & _ & E & _). rewrite A in E. injection E as <-. exact B.
Qed.

Section Statement.
  Variables (str : tok -> list Z) (lev : Z) (outx : var) (outf : sym).
  Hypotheses (Lv : sLevel outf = vlev outx) (Of : vOffset outf = voff outx) (To : vty outx = xWord) (Ad : addressable lev outx).

  (** What the code [code] of a statement does *)
  Definition statement_writes (code : list opType) (k : Z) (vs : list var) (env : var -> Z) (x : var) (ro l : list Z) : Prop :=
    forall e s t y, room s k -> (forall z, In z (x :: vs) -> located lev s z (env z)) -> constants s ro ->
      SysioSpec.writable t (env x) y -> SysioModel.e_fail e = false ->
      exists s' t', exec_io e code s t = Some (s', t') /\ pushed s s' [] /\ wrote t t' (env x) y l.

  Lemma run_file x env s : vty x = xWord -> room s 1 -> located lev s x (env x) -> 0 <= env x < 8 ->
    exists s1, exec_list [refer lev oLDS x] s = Ok s1 /\ pushed s s1 [env x].
  Proof.
    intros T R L B. destruct (file_loads lev x env T s R) as (s1 & E & P).
    - intros y [<-|[]]. exact L.
    - rewrite Z.mod_small in P by lia. exists s1. split; assumption.
  Qed.

  Lemma run_inds s s2 n : room s 1 -> pushed s s2 [n] -> exists s', exec_insn s2 (mkOp oINDS 0 65534) = Ok s' /\ pushed s s' [].
  Proof.
    intros (R1 & R2 & R3 & R4) (A & Sp & _ & I). cbn [length] in Sp.
    change (exec_insn s2 (mkOp oINDS 0 65534)) with (next 3 (exec24 INDS s2 65534)). cbn [exec24 next].
    eexists. split; [reflexivity|]. change (s16 65534) with (-2).
    replace (u16 (sp s2 + -2)) with (sp s) by (rewrite u16_small; lia).
    destruct A as (A1 & A2 & A3 & A4 & A5). unfold pushed, same_regs. cbn [cf csp fp lsp fch sp with_pc with_sp length].
    split; [repeat split; assumption|]. split; [lia|]. split; [intros k v H; destruct k; discriminate H|exact I].
  Qed.

  Lemma run_writeln e s s2 t n y : room s 1 -> pushed s s2 [n] -> SysioSpec.writable t n y -> SysioModel.e_fail e = false ->
    exists s' t', exec_io e [io_code SysioModel.xWRITELN] s2 t = Some (s', t') /\ pushed s s' [] /\ wrote t t' n y [10].
  Proof.
    intros (R1 & R2 & R3 & R4) P W F.
    assert (B : 0 <= sp s2 < 65536) by (destruct P as (_ & Sp & _); cbn [length] in Sp; lia).
    pose proof (pushed_operands _ _ _ B P) as Ho. cbn [rev app] in Ho.
    apply (run_io e _ s s2 [n]); [lia|exact P|].
    destruct (write_text_wrote e (discard s2 1) t n y 0 [10] W F) as (t' & E & V).
    exists 1, t'. split; [|split; [reflexivity|exact V]].
    change (SysioModel.sysio e s2 t SysioModel.xWRITELN) with (SysioModel.sbind (pop s2) (fun '(n, s) => SysioModel.write_text e s t n 0 [10])).
    StringProofs.start_pops Ho. cbn [SysioModel.sbind]. exact E.
  Qed.

  (** [fin]: the last instruction *)
  Lemma statement_run code k vs env x ro l fin m : vty x = xWord -> 0 <= k ->
    writes lev code k vs env ro l ->
    (forall e s s2 t n y, room s 1 -> pushed s s2 [n] -> SysioSpec.writable t n y -> SysioModel.e_fail e = false ->
       exists s' t', exec_io e [fin] s2 t = Some (s', t') /\ pushed s s' [] /\ wrote t t' n y m) ->
    statement_writes ([refer lev oLDS x] ++ code ++ [fin]) (k + 1) vs env x ro (l ++ m).
  Proof.
    intros T K C E e s t y R L Co W F.
    destruct (run_file x env s T) as (s1 & E1 & P1); [eapply room_mono; [exact R|lia]|apply L; left; reflexivity|apply W|].
    pose proof P1 as (_ & Sp & Wd & _). cbn [length] in Sp.
    destruct (C e s1 t (env x) y) as (s2 & t2 & E2 & P2 & W2); auto.
    - eapply room_mono; [eapply room_pushed; [exact P1|exact R]|cbn [length]; lia].
    - destruct R. lia.
    - unfold tos. rewrite <- (Wd 0%nat _ eq_refl). f_equal. lia.
    - intros z Hz. apply (located_mono _ _ _ _ _ _ P1), L. right. exact Hz.
    - eapply constants_pushed; [apply R|exact P1|exact Co].
    - destruct (E e s s2 t2 (env x) (SysioModel.mkStream (SysioModel.rest y) (SysioModel.out y ++ l) (SysioModel.ate y))) as (s3 & t3 & E3 & P3 & W3).
      + eapply room_mono; [exact R|lia].
      + exact (pushed_app _ _ _ _ _ P1 P2).
      + apply W2.
      + exact F.
      + exists s3, t3. split; [|split; [exact P3|exact (wrote_trans _ _ _ _ _ _ _ W2 W3)]].
        rewrite exec_io_app, (exec_io_ok e t _ _ _ E1), exec_io_app, E2. exact E3.
  Qed.

  Lemma fin_inds e s s2 t n y : room s 1 -> pushed s s2 [n] -> SysioSpec.writable t n y -> SysioModel.e_fail e = false ->
    exists s' t', exec_io e [mkOp oINDS 0 65534] s2 t = Some (s', t') /\ pushed s s' [] /\ wrote t t' n y [].
  Proof.
    intros R P W F. destruct (run_inds s s2 n R P) as (s' & E & Q). exists s', t. split; [|split; [exact Q|apply wrote_nil, W]].
    apply exec_io_ok. cbn [exec_list]. rewrite E. reflexivity.
  Qed.

  Lemma writes_nil env ro : writes lev [] 0 [] env ro [].
  Proof. intros e s t n x _ _ _ _ _ W _. exists s, t. split; [reflexivity|]. split; [apply pushed_nil|apply wrote_nil, W]. Qed.

  Definition closing (ln : bool) : opType := if ln then io_code SysioModel.xWRITELN else mkOp oINDS 0 65534.
  Definition line_end (ln : bool) : list Z := if ln then [10] else [].

  (** The parameters and what precedes them, after the opening parenthesis *)
  Lemma parameters ts is x us : gitems str lev ts is -> forall ro, Z.of_nat (length ro) + strings_size is <= 32767 -> vty x = xWord ->
    (us = ts /\ x = outx \/ exists f e, us = f :: e :: ts /\ spells_file f x /\ addressable lev x /\ tk e = tCOMMA) ->
    exists code ro', extends ro ro' /\
    (forall c b rest n, toks c = us ++ b :: rest -> tk b = tRPAREN -> g_level c = lev -> (5 * length (toks c) + 5 <= n)%nat ->
       token c <> tRPAREN /\
       exists c1, file_number outf c = Some (true, c1) /\
         write_common str n ro (if token c1 =? tCOMMA then getToken c1 else c1) = WDone (after c (b :: rest) ([refer lev oLDS x] ++ code)) ro') /\
    forall env l, items_text env is l -> forall roF, extends ro' roF -> Z.of_nat (length roF) <= 32767 ->
      forall ln, statement_writes ([refer lev oLDS x] ++ code ++ [closing ln]) (2 * Z.of_nat (length us) + 8) (flat_map ivars is) env x roF (l ++ line_end ln).
  Proof.
    intros G ro Nd Tx H. rewrite <- needs_size in Nd. destruct (items_after str lev ts is G ro Nd) as (code & ro' & X & Y & C & R).
    exists code, ro'. split; [exact X|]. split.
    - intros c b rest n Tk Mk L F. destruct H as [(-> & ->)|(f & e & -> & Sf & Af & Ke)].
      + pose proof (gitems_plain _ _ _ _ G c _ Tk) as N. split; [intros E; apply N; rewrite E; cbn; tauto|].
        exists (after c (toks c) [refer lev oLDS outx]). split; [apply file_default; assumption|].
        rewrite token_after. change (tk (hd eoftok (toks c))) with (token c). rewrite (not_in_eqb _ (token c) tCOMMA N) by (cbn; tauto).
        rewrite (C _ b rest n); [rewrite after_after; reflexivity|exact Tk|exact Mk|exact L|exact F].
      + cbn [app] in Tk. split.
        * unfold token, cur. rewrite Tk. cbn [hd]. rewrite (proj1 Sf). discriminate.
        * exists (after c (e :: ts ++ b :: rest) [refer lev oLDS x]). split; [eapply file_var; eassumption|].
          rewrite token_after. cbn [hd]. rewrite Ke, Z.eqb_refl, get_after.
          rewrite (C _ b rest n); [rewrite after_after; reflexivity|reflexivity|exact Mk|exact L|].
          rewrite after_toks. rewrite Tk in F. cbn [length] in F. lia.
    - intros env l It roF Xf Lf ln e s t y Rm.
      apply (statement_run code (2 * Z.of_nat (length ts) + 6) (flat_map ivars is) env x roF l (closing ln) (line_end ln) Tx); [lia|apply R; assumption| |].
      + destruct ln; [apply run_writeln|apply fin_inds].
      + eapply room_mono; [exact Rm|]. destruct H as [(-> & _)|(f & e0 & -> & _)]; cbn [length]; lia.
  Qed.

  Lemma inds_eq c : data_op oINDS (-2) c = append (mkOp oINDS 0 65534) c.
  Proof. reflexivity. Qed.

  Lemma statement ts x is ln : gwrite str lev outx ts x is ln -> forall ro, Z.of_nat (length ro) + strings_size is <= 32767 ->
    exists code ro', extends ro ro' /\
    (forall c rest n, toks c = ts ++ rest -> (length ts = 1%nat -> tk (hd eoftok rest) <> tLPAREN) -> g_level c = lev -> (5 * length (toks c) + 5 <= n)%nat ->
       write_statement str outf n ro c = WDone (after c rest code) ro') /\
    forall env l, items_text env is l -> forall roF, extends ro' roF -> Z.of_nat (length roF) <= 32767 ->
      statement_writes code (2 * Z.of_nat (length ts) + 8) (flat_map ivars is) env x roF (l ++ line_end ln).
  Proof.
    assert (Paren : forall a b us d (ln : bool) is x ts, tk a = tSTDPROC -> tsub a = (if ln then txWRITELN else txWRITE) -> tk b = tLPAREN -> tk d = tRPAREN ->
      gitems str lev ts is -> vty x = xWord -> (us = ts /\ x = outx \/ exists f e, us = f :: e :: ts /\ spells_file f x /\ addressable lev x /\ tk e = tCOMMA) ->
      forall ro, Z.of_nat (length ro) + strings_size is <= 32767 ->
      exists code ro', extends ro ro' /\
      (forall c rest n, toks c = (a :: b :: us ++ [d]) ++ rest -> (length (a :: b :: us ++ [d]) = 1%nat -> tk (hd eoftok rest) <> tLPAREN) -> g_level c = lev -> (5 * length (toks c) + 5 <= n)%nat ->
         write_statement str outf n ro c = WDone (after c rest code) ro') /\
      forall env l, items_text env is l -> forall roF, extends ro' roF -> Z.of_nat (length roF) <= 32767 ->
        statement_writes code (2 * Z.of_nat (length (a :: b :: us ++ [d])) + 8) (flat_map ivars is) env x roF (l ++ line_end ln)).
    { intros a b us d ln' is' y ts' A1 A2 B D G Ty H ro Nd.
      destruct (parameters ts' is' y us G ro Nd Ty H) as (code & ro' & X & C & R).
      exists ([refer lev oLDS y] ++ code ++ [closing ln']), ro'. split; [exact X|]. split.
      - intros c rest n Tk _ L F. cbn [app] in Tk. rewrite <- app_assoc in Tk. cbn [app] in Tk.
        assert (Cu : cur c = a) by (unfold cur; rewrite Tk; reflexivity).
        assert (Tc : token c = tSTDPROC) by (unfold token; rewrite Cu; exact A1).
        unfold write_statement. rewrite Tc, Cu, A2. cbn [Z.eqb Pos.eqb negb tSTDPROC].
        set (c1 := after c (us ++ d :: rest) []).
        assert (Len : (5 * length (toks c1) + 5 <= n)%nat) by (unfold c1; rewrite after_toks; rewrite Tk in F; cbn [length] in F; lia).
        destruct (C c1 d rest n eq_refl D L Len) as (Nr & c2 & Fn & Wc).
        assert (Nr' : (token c1 =? tRPAREN) = false) by lia.
        destruct ln'; cbn [Z.eqb Pos.eqb txWRITE txWRITELN].
        + unfold writeln_proc. rewrite (get_at c a _ Tk), token_after. cbn [hd]. rewrite B, Z.eqb_refl, get_after. fold c1. rewrite Nr', Fn. cbn [negb error_if].
          rewrite Wc. cbn [bindw]. unfold expect. rewrite token_after. cbn [hd]. rewrite D, Z.eqb_refl, get_after. cbn [bindw].
          rewrite io_op_eq by (vm_compute; split; discriminate). rewrite append_after. unfold c1. rewrite after_after. cbn [closing]. rewrite <- !app_assoc. reflexivity.
        + unfold write_proc. cbv zeta. rewrite (get_at c a _ Tk).
          assert (Ex : expect tLPAREN eLPAREN (after c (b :: us ++ d :: rest) []) = c1) by (unfold expect; rewrite token_after; cbn [hd]; rewrite B, Z.eqb_refl, get_after; reflexivity).
          rewrite Ex, Nr'. cbn [error_if].
          rewrite Fn, Wc. cbn [bindw]. rewrite inds_eq, append_after. unfold expect. rewrite token_after. cbn [hd]. rewrite D, Z.eqb_refl, get_after.
          unfold c1. rewrite after_after. cbn [closing]. rewrite <- !app_assoc. reflexivity.
      - intros env l It roF Xf Lf e s t z Rm. apply (R env l It roF Xf Lf ln'). eapply room_mono; [exact Rm|]. cbn [length]. rewrite app_length. cbn [length]. lia. }
    assert (Line : forall k env l roF, 8 <= k -> items_text env [] l -> statement_writes ([refer lev oLDS outx] ++ [] ++ [closing true]) k (flat_map ivars []) env outx roF (l ++ line_end true)).
    { intros k env l roF K It. inversion It; subst. intros e s t y Rm. apply (statement_run [] 0 [] env outx roF [] (closing true) (line_end true) To); [lia|apply writes_nil|apply run_writeln|].
      eapply room_mono; [exact Rm|lia]. }
    intros [a b us js d A1 A2 B G D|a b f y e0 us js d A1 A2 B Sf Af E0 G D|a A1 A2|a b d A1 A2 B D|a b us js d A1 A2 B G D|a b f y e0 us js d A1 A2 B Sf Af E0 G D] ro Nd.
    - apply (Paren a b us d false js outx us); auto.
    - apply (Paren a b (f :: e0 :: us) d false js y us); auto; [apply Sf|]. right. exists f, e0. auto.
    - exists ([refer lev oLDS outx] ++ [] ++ [closing true]), ro. split; [apply extends_refl|]. split.
      + intros c rest n Tk Np L F. cbn [app] in Tk. specialize (Np eq_refl).
        assert (Cu : cur c = a) by (unfold cur; rewrite Tk; reflexivity).
        unfold write_statement. replace (token c) with tSTDPROC by (unfold token; rewrite Cu; auto). rewrite Cu, A2. cbn [Z.eqb Pos.eqb negb txWRITE txWRITELN tSTDPROC].
        unfold writeln_proc. rewrite (get_at c a _ Tk), token_after. replace (tk (hd eoftok rest) =? tLPAREN) with false by lia.
        rewrite (stack_ref_eq lev oLDS outf outx); [|cbn; tauto|exact Lv|exact Of|exact L|exact Ad]. rewrite append_after. cbn [bindw].
        rewrite io_op_eq by (vm_compute; split; discriminate). rewrite append_after. reflexivity.
      + intros env l It roF _ _. apply Line; [lia|exact It].
    - exists ([refer lev oLDS outx] ++ [] ++ [closing true]), ro. split; [apply extends_refl|]. split.
      + intros c rest n Tk _ L F. cbn [app] in Tk.
        assert (Cu : cur c = a) by (unfold cur; rewrite Tk; reflexivity).
        unfold write_statement. replace (token c) with tSTDPROC by (unfold token; rewrite Cu; auto). rewrite Cu, A2. cbn [Z.eqb Pos.eqb negb txWRITE txWRITELN tSTDPROC].
        unfold writeln_proc. rewrite (get_at c a _ Tk), token_after. cbn [hd]. rewrite B, Z.eqb_refl, get_after, token_after. cbn [hd]. rewrite D, Z.eqb_refl.
        rewrite (stack_ref_eq lev oLDS outf outx); [|cbn; tauto|exact Lv|exact Of|exact L|exact Ad]. rewrite append_after. cbn [bindw].
        unfold expect. rewrite token_after. cbn [hd]. rewrite D, Z.eqb_refl, get_after. cbn [bindw].
        rewrite io_op_eq by (vm_compute; split; discriminate). rewrite append_after. reflexivity.
      + intros env l It roF _ _. apply Line; [lia|exact It].
    - apply (Paren a b us d true js outx us); auto.
    - apply (Paren a b (f :: e0 :: us) d true js y us); auto; [apply Sf|]. right. exists f, e0. auto.
  Qed.
End Statement.
