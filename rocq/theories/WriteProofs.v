(** Write and WriteLn: the code of the parameters. *)

From Coq Require Import ZArith Bool List Lia ZifyBool.
From Verif Require Import Words WordLemmas State StateLemmas Opcodes EncodeModel SetModel LongModel Machine VmSpec
  LongSpec VmProofs MemProofs MultiProofs LongProofs CallProofs ExprModel ExprSpec ExprRun ExprOps ExprLoad ExprProofs ExprMain ExprAccept ExprTotal
  StmtModel ArrProofs WriteModel WriteSpec WriteRun.
From Verif Require SysioModel SysioSpec.
Import ListNotations.
Open Scope Z_scope.
Local Transparent rewrites.
Local Ltac Zify.zify_post_hook ::= Z.div_mod_to_equations.

(** ** First tokens *)

Definition plain_start (ts : list tok) : Prop := exists a us, ts = a :: us /\
  ~ In (tk a) [tSTRING_CONST; sSTRING_CONST; sARRAY; sFILE; sTEXTFILE; sPOINTER; sVAR_PARM; tCOMMA; tRPAREN].
Lemma plain_app ts us : plain_start ts -> plain_start (ts ++ us).
Proof. intros (a & vs & -> & H). exists a, (vs ++ us). split; [reflexivity|exact H]. Qed.
Lemma plain_cons a ts : In (tk a) [tINT_CONST; tBOOLEAN_CONST; tCHAR_CONST; tLPAREN; tNOT; tTILDE; sTYPE; tSTDFUNC; tPLUS; tMINUS] -> plain_start (a :: ts).
Proof.
  intros H. exists a, ts. split; [reflexivity|]. intros X. cbn [In] in H, X.
  repeat (destruct H as [H|H]; [rewrite <- H in X; repeat (destruct X as [X|X]; [discriminate X|]); exact X|]). exact H.
Qed.
Lemma grammar_plain :
  (forall ts f, gfactor ts f -> plain_start ts) /\ (forall ts t, gterm ts t -> plain_start ts) /\
  (forall ts s, gsimple ts s -> plain_start ts) /\ (forall ts e, gexpr ts e -> plain_start ts).
Proof.
  apply grammar_ind; intros; try (apply plain_app; assumption); try assumption.
  1-3: apply plain_cons; match goal with H : tk _ = _ |- _ => rewrite H; cbn; tauto end.
  - destruct s as (K & _ & _ & _ & N). exists t, []. split; [reflexivity|]. rewrite K. intros X.
    destruct (vty x); cbn [kind_of In] in X, N; try (exfalso; apply N; tauto);
      repeat (destruct X as [X|X]; [discriminate X|]); exact X.
  - apply plain_cons. match goal with H : tk a = _ |- _ => rewrite H; cbn; tauto end.
  - apply plain_cons. match goal with H : tk a = _ \/ tk a = _ |- _ => destruct H as [H|H]; rewrite H; cbn; tauto end.
  - apply plain_cons. match goal with H : tk a = _ |- _ => rewrite H; cbn; tauto end.
  - match goal with H : spells_std _ _ |- _ => destruct H as (H & _) end. apply plain_cons. match goal with H : tk a = _ |- _ => rewrite H; cbn; tauto end.
  - apply plain_cons. match goal with H : tk a = _ |- _ => rewrite H; cbn; tauto end.
  - apply plain_cons. match goal with H : tk a = _ |- _ => rewrite H; cbn; tauto end.
Qed.
Lemma expr_plain ts e : gexpr ts e -> plain_start ts.
Proof. apply grammar_plain. Qed.
Lemma expr_tokens ts e : gexpr ts e -> (1 <= length ts)%nat.
Proof. apply (proj2 (proj2 (proj2 grammar_nonempty))). Qed.

Lemma ended_mark b r : In (tk b) [tCOLON; tCOMMA; tRPAREN] -> ended (b :: r).
Proof.
  intros I C. unfold continues in C. cbn [hd] in C. cbn [In] in I, C.
  destruct I as [I|[I|[I|[]]]]; rewrite <- I in C; repeat (destruct C as [C|C]; [discriminate C|]); exact C.
Qed.

(** ** Code *)

Definition wsz (t : etype) (z : Z) : Z := Z.of_nat (length (words t z)).

Section Items.
  Variables (str : tok -> list Z) (lev : Z).

  (** The code writes the characters [l] to the file the number of which is on the top
      of the stack. *)
  Definition writes (code : list opType) (k : Z) (vs : list var) (env : var -> Z) (ro l : list Z) : Prop :=
    forall e s t n x, room s k -> 2 <= sp s -> tos s 0 = Some n -> (forall y, In y vs -> located lev s y (env y)) ->
      constants s ro -> SysioSpec.writable t n x -> SysioModel.e_fail e = false ->
      exists s' t', exec_io e code s t = Some (s', t') /\ pushed s s' [] /\ wrote t t' n x l.

  Lemma shown_unique T z l m : shown T z l -> shown T z m -> l = m.
  Proof. destruct T; cbn [shown]; try apply numeral_unique; congruence. Qed.

  Lemma writes_value ce ke xs T z cw kw ys env ro w l : printable T = true -> inr T z = true -> shown T z l -> 0 <= ke -> 0 <= kw ->
    computes lev ce ke xs env (words T z) -> computes lev cw kw ys env [w] -> 0 <= w < 65536 ->
    writes ([mkOp oDUP 0 0] ++ (ce ++ cw) ++ [io_code (write_fun T)]) (ke + kw + 4) (xs ++ ys) env ro (right_justified (w / 256) l).
  Proof.
    intros Pr I Sh K1 K2 Ce Cw Bw e s t n x R S0 T0 V Co W F.
    assert (Ke : 0 <= Z.of_nat (length (words T z)) <= 2) by (unfold words; destruct (is32 T); cbn; lia).
    destruct (run_dup s n) as (s1 & E1 & Q1); [eapply room_mono; [exact R|lia]|exact S0|exact T0|].
    pose proof (room_pushed _ _ _ _ Q1 R) as R1. cbn [length] in R1.
    destruct (Ce s1) as (s2 & E2 & P2); [eapply room_mono; [exact R1|lia]| |].
    { intros y Hy. apply (located_mono _ _ _ _ _ _ Q1). apply V, in_or_app. auto. }
    pose proof (pushed_app _ _ _ _ _ Q1 P2) as Q2.
    destruct (Cw s2) as (s3 & E3 & P3).
    { eapply room_mono; [eapply room_pushed; [exact Q2|exact R]|]. rewrite app_length. cbn [length]. lia. }
    { intros y Hy. apply (located_mono _ _ _ _ _ _ Q2). apply V, in_or_app. auto. }
    pose proof (pushed_app _ _ _ _ _ Q2 P3) as Q3. cbn [app] in Q3.
    assert (B3 : 0 <= sp s3 < 65536).
    { destruct Q3 as (_ & Sp & _). cbn [length] in Sp. rewrite app_length in Sp. cbn [length] in Sp. destruct R as (Ra & Rb & Rc & Rd). lia. }
    destruct (run_value e T z s s3 t n x w Pr I ltac:(lia) B3 Bw Q3 W F) as (s' & t' & l' & X & Y & Sh' & Z0).
    rewrite (shown_unique _ _ _ _ Sh Sh'). exists s', t'. split; [|split; assumption].
    rewrite exec_io_app, (exec_io_ok e t [mkOp oDUP 0 0] s s1) by (cbn [exec_list]; rewrite E1; reflexivity).
    rewrite exec_io_app, (exec_io_ok e t (ce ++ cw) s1 s3) by (rewrite exec_app, E2; exact E3). exact X.
  Qed.

  Lemma justified_0 l : right_justified (0 / 256) l = l.
  Proof. unfold right_justified. change (0 / 256) with 0. replace (Z.to_nat (0 - Z.of_nat (length l))) with 0%nat by lia. reflexivity. Qed.

  (** ** The compiler *)

  Lemma dup_eq c : simple_op oDUP c = append (mkOp oDUP 0 0) c.
  Proof. reflexivity. Qed.
  Lemma append_level p c : g_level (append p c) = g_level c. Proof. reflexivity. Qed.
  Lemma append_toks p c : toks (append p c) = toks c. Proof. reflexivity. Qed.
  Lemma append_at p c r : toks c = r -> append p c = after c r [p].
  Proof. intros <-. reflexivity. Qed.

  Definition need (i : item) : Z := match i with IString l => Z.of_nat (length l) + 2 | _ => 0 end.
  Definition extends (ro ro' : list Z) : Prop := exists l, ro' = ro ++ l.
  Lemma extends_refl ro : extends ro ro. Proof. exists []. rewrite app_nil_r. reflexivity. Qed.
  Lemma extends_trans a b c : extends a b -> extends b c -> extends a c.
  Proof. intros (l & ->) (m & ->). exists (l ++ m). rewrite app_assoc. reflexivity. Qed.

  Lemma starts_token ts c rest : plain_start ts -> toks c = ts ++ rest ->
    ~ In (token c) [tSTRING_CONST; sSTRING_CONST; sARRAY; sFILE; sTEXTFILE; sPOINTER; sVAR_PARM; tCOMMA; tRPAREN].
  Proof. intros (a & us & -> & H) E. unfold token, cur. rewrite E. exact H. Qed.

  Lemma not_in_eqb l k x : ~ In k l -> In x l -> (k =? x) = false.
  Proof. intros H I. apply Z.eqb_neq. intros ->. exact (H I). Qed.

  Lemma item_after ts i : gitem str lev ts i -> forall ro, Z.of_nat (length ro) + need i <= 32767 ->
    exists code ro', extends ro ro' /\ Z.of_nat (length ro') <= Z.of_nat (length ro) + need i /\
    (forall c b rest n, toks c = ts ++ b :: rest -> In (tk b) [tCOMMA; tRPAREN] -> g_level c = lev -> (4 * length (toks c) + 4 <= n)%nat ->
       write_text str n ro c = WDone (after c (b :: rest) code) ro') /\
    forall env l, item_text env i l -> forall roF, extends ro' roF -> Z.of_nat (length roF) <= 32767 ->
      writes code (2 * Z.of_nat (length ts) + 6) (ivars i) env roF l.
  Proof.
    intros [us e T G Ty Pr Ad|us e T b0 vs w G Ty Pr B Gw Tw Ad|a A] ro Nd.
    - destruct (expr_after lev us e xUnknown T G Ty Ad) as (ce & C & R).
      exists ([mkOp oDUP 0 0] ++ (ce ++ [lpush 0]) ++ [io_code (write_fun T)]), ro. split; [apply extends_refl|]. split; [cbn [need]; lia|]. split.
      + intros c b rest n Tk Mk L F. unfold write_text. pose proof (starts_token _ _ _ (expr_plain _ _ G) Tk) as St.
        rewrite (not_in_eqb _ (token c) tSTRING_CONST St) by (cbn; tauto). rewrite (not_in_eqb _ (token c) sSTRING_CONST St) by (cbn; tauto). rewrite (not_in_eqb _ (token c) sARRAY St) by (cbn; tauto).
        rewrite dup_eq, (C _ (b :: rest) n); [|exact Tk|apply ended_mark; cbn [In] in *; tauto|exact L|exact F].
        cbn [of_res]. rewrite (append_at _ c _ eq_refl), after_after. unfold write_width. rewrite token_after. cbn [hd].
        replace (tk b =? tCOLON) with false by (symmetry; cbn [In] in Mk; destruct Mk as [<-|[<-|[]]]; reflexivity).
        cbn [bindw]. rewrite emit_push by lia. rewrite append_after, write_op_eq by exact Pr. rewrite append_after, <- !app_assoc. reflexivity.
      + intros env l (z & V & Sh) roF _ _. destruct (R env z V) as (I & Cm).
        rewrite <- (justified_0 l). cbn [ivars]. rewrite <- (app_nil_r (evars e)).
        intros e0 s t n x Rm. apply (writes_value ce (2 * Z.of_nat (length us)) (evars e) T z [lpush 0] 1 [] env roF 0 l Pr I Sh); try lia; [exact Cm|apply computes_push; lia|].
        eapply room_mono; [exact Rm|]. lia.
    - destruct (expr_after lev us e xUnknown T G Ty) as (ce & C & R); [intros y Hy; apply Ad, in_or_app; auto|].
      destruct (expr_after lev vs w xShortInteger xShortInteger Gw Tw) as (cw & Cw & Rw); [intros y Hy; apply Ad, in_or_app; auto|].
      exists ([mkOp oDUP 0 0] ++ (ce ++ ((cw ++ [lpush 8]) ++ [mkOp oSLL 0 0])) ++ [io_code (write_fun T)]), ro.
      split; [apply extends_refl|]. split; [cbn [need]; lia|]. split.
      + intros c b rest n Tk Mk L F. unfold write_text. rewrite <- app_assoc in Tk. cbn [app] in Tk.
        pose proof (starts_token _ _ _ (expr_plain _ _ G) Tk) as St.
        rewrite (not_in_eqb _ (token c) tSTRING_CONST St) by (cbn; tauto). rewrite (not_in_eqb _ (token c) sSTRING_CONST St) by (cbn; tauto). rewrite (not_in_eqb _ (token c) sARRAY St) by (cbn; tauto).
        rewrite dup_eq, (C _ (b0 :: vs ++ b :: rest) n); [|exact Tk|apply ended_mark; rewrite B; cbn; tauto|exact L|exact F].
        cbn [of_res]. rewrite (append_at _ c _ eq_refl), after_after. unfold write_width. rewrite token_after. cbn [hd]. rewrite B, Z.eqb_refl.
        rewrite get_after, (Cw _ (b :: rest) n); [|reflexivity|apply ended_mark; cbn [In] in *; tauto|exact L|].
        2:{ rewrite after_toks. rewrite Tk, app_length in F. cbn [length] in F. lia. }
        cbn [of_res]. replace (teq xShortInteger xShortInteger) with true by reflexivity. cbn [negb error_if].
        rewrite emit_push by lia. change (8 mod 65536) with 8. rewrite after_after, append_after.
        match goal with |- context [simple_op oSLL ?x] => change (simple_op oSLL x) with (append (mkOp oSLL 0 0) x) end.
        rewrite append_after, token_after. cbn [hd].
        replace (tk b =? tCOLON) with false by (symmetry; cbn [In] in Mk; destruct Mk as [<-|[<-|[]]]; reflexivity).
        cbn [bindw]. rewrite write_op_eq by exact Pr. rewrite append_after, <- !app_assoc. cbn [app]. reflexivity.
      + intros env l (z & k & l0 & V & Sh & Vw & Bk & ->) roF _ _. destruct (R env z V) as (I & Cm). destruct (Rw env k Vw) as (Iw & Cmw).
        pose proof (expr_tokens _ _ Gw). change (words xShortInteger k) with [k mod 65536] in Cmw.
        assert (Cm2 : computes lev ((cw ++ [lpush 8]) ++ [mkOp oSLL 0 0]) (2 * Z.of_nat (length vs) + 1) (evars w) env [(k * 2 ^ 8) mod 65536]).
        { apply (computes_op_all lev env _ _ (2 * Z.of_nat (length vs) + 1) 0 _ _ ([k mod 65536] ++ [8 mod 65536])); [|exact (rw_sll k 8 ltac:(lia))|lia|cbn [app length]; lia].
          rewrite <- (app_nil_r (evars w)).
          apply (computes_seq lev env cw [lpush 8] (2 * Z.of_nat (length vs)) 1); [exact Cmw|apply computes_push; lia|lia|cbn [length]; lia]. }
        cbn [ivars]. assert (Ek : (k * 2 ^ 8) mod 65536 / 256 = k) by (rewrite Z.mod_small by (change (2 ^ 8) with 256; lia); change (2 ^ 8) with 256; apply Z.div_mul; lia). rewrite <- Ek. clear Ek.
        intros e0 s t n x Rm.
        apply (writes_value ce (2 * Z.of_nat (length us)) (evars e) T z _ (2 * Z.of_nat (length vs) + 1) (evars w) env roF ((k * 2 ^ 8) mod 65536) l0 Pr I Sh); try lia; [exact Cm|exact Cm2|].
        eapply room_mono; [exact Rm|]. rewrite app_length. cbn [length]. lia.
    - cbn [need] in Nd. exists (string_code (Z.of_nat (length (str a))) (Z.of_nat (length ro))), (add_string (str a) ro).
      split; [eexists; reflexivity|]. split.
      { unfold add_string. cbn [need]. rewrite !app_length. cbn [length]. destruct (Z.odd _); cbn [length]; lia. }
      split.
      + intros c b rest n Tk Mk L F. unfold write_text. cbn [app] in Tk.
        assert (Cu : cur c = a) by (unfold cur; rewrite Tk; reflexivity).
        assert (Tc : token c = tSTRING_CONST) by (unfold token; rewrite Cu; exact A).
        rewrite Tc, Z.eqb_refl, Cu. unfold write_string. rewrite u16_small by lia.
        rewrite dup_eq, (append_at _ c _ Tk), !emit_push by lia.
        assert (La : forall c o, 0 <= o <= 65535 -> data_op oLAC o c = append (mkOp oLAC 0 o) c).
        { clear. intros c o H. unfold data_op, emit. change (has8 oLAC) with false. change (has16 oLAC) with true. cbn [andb error_if].
          replace ((o <? -32768) || (65535 <? o)) with false by lia. cbn [error_if]. rewrite u16_small by lia. reflexivity. }
        rewrite La by lia. rewrite !append_after.
        unfold write_width. rewrite token_after. cbn [hd]. rewrite A. change (tSTRING_CONST =? tCOLON) with false. cbv iota. cbn [bindw].
        rewrite emit_push by lia. rewrite append_after, io_op_eq by (vm_compute; split; discriminate). rewrite append_after, get_after.
        rewrite <- !app_assoc. cbn [app]. rewrite Z.mod_small by lia. reflexivity.
      + intros env l H roF (m & ->) Lf e s t n x Rm S0 T0 V Co W F. cbn [item_text] in H. subst l. unfold add_string in *. rewrite <- app_assoc in Co, Lf.
        rewrite <- (app_assoc (str a)) in Co, Lf.
        eapply run_string; try eassumption. eapply room_mono; [exact Rm|]. cbn [length]. lia.
  Qed.

  (** ** All parameters *)

  Definition needs (is : list item) : Z := fold_right (fun i n => need i + n) 0 is.
  Lemma need_pos i : 0 <= need i. Proof. destruct i; cbn [need]; lia. Qed.
  Lemma needs_pos is : 0 <= needs is.
  Proof. induction is as [|i is IH]; cbn [needs fold_right]; [lia|]. fold (needs is). pose proof (need_pos i). lia. Qed.

  Lemma writes_app a b k k' xs ys env ro l m : writes a k xs env ro l -> writes b k' ys env ro m ->
    writes (a ++ b) (Z.max k k') (xs ++ ys) env ro (l ++ m).
  Proof.
    intros A B e s t n x R S0 T0 V Co W F.
    destruct (A e s t n x) as (s1 & t1 & E1 & P1 & W1); auto; [eapply room_mono; [exact R|lia]|intros; apply V, in_or_app; auto|].
    destruct (B e s1 t1 n (SysioModel.mkStream (SysioModel.rest x) (SysioModel.out x ++ l) (SysioModel.ate x))) as (s2 & t2 & E2 & P2 & W2).
    - eapply room_mono; [eapply room_pushed; [exact P1|exact R]|cbn [length]; lia].
    - destruct P1 as (_ & Sp & _). cbn [length] in Sp. lia.
    - destruct P1 as (_ & Sp & _ & I). cbn [length] in Sp. unfold tos in *. replace (sp s1) with (sp s) by lia. rewrite I; [exact T0|lia].
    - intros y Hy. apply (located_mono _ _ _ _ _ _ P1), V, in_or_app. auto.
    - eapply constants_pushed; [apply R|exact P1|exact Co].
    - apply W1.
    - exact F.
    - exists s2, t2. split; [rewrite exec_io_app, E1; exact E2|]. split; [exact (pushed_app _ _ _ _ _ P1 P2)|]. exact (wrote_trans _ _ _ _ _ _ _ W1 W2).
  Qed.

  Lemma gitem_tokens ts i : gitem str lev ts i -> (1 <= length ts)%nat.
  Proof. intros [us e T G _ _ _|us e T b vs w G _ _ _ _ _ _|a _]; [exact (expr_tokens _ _ G)|rewrite app_length; cbn; lia|cbn; lia]. Qed.

  Lemma items_after ts is : gitems str lev ts is -> forall ro, Z.of_nat (length ro) + needs is <= 32767 ->
    exists code ro', extends ro ro' /\ Z.of_nat (length ro') <= Z.of_nat (length ro) + needs is /\
    (forall c b rest n, toks c = ts ++ b :: rest -> tk b = tRPAREN -> g_level c = lev -> (5 * length (toks c) + 5 <= n)%nat ->
       write_common str n ro c = WDone (after c (b :: rest) code) ro') /\
    forall env l, items_text env is l -> forall roF, extends ro' roF -> Z.of_nat (length roF) <= 32767 ->
      writes code (2 * Z.of_nat (length ts) + 6) (flat_map ivars is) env roF l.
  Proof.
    induction 1 as [ts i G|ts i b0 us is G B Gs IH]; intros ro Nd; cbn [needs fold_right] in *; [|fold (needs is) in *].
    - destruct (item_after ts i G ro ltac:(lia)) as (code & ro' & X & Y & C & R). exists code, ro'. split; [exact X|]. split; [lia|]. split.
      + intros c b rest n Tk Mk L F. destruct n as [|n]; [lia|]. cbn [write_common].
        rewrite (C c b rest n Tk); [|rewrite Mk; cbn; tauto|exact L|lia]. cbn [bindw]. rewrite token_after. cbn [hd]. rewrite Mk.
        change (tRPAREN =? tCOMMA) with false. reflexivity.
      + intros env l It roF. inversion It as [|? l1 ? l2 I1 I2]; subst. inversion I2; subst. cbn [flat_map]. rewrite !app_nil_r. apply R, I1.
    - pose proof (need_pos i). pose proof (needs_pos is).
      destruct (item_after ts i G ro ltac:(lia)) as (code & ro1 & X & Y & C & R).
      destruct (IH ro1 ltac:(lia)) as (code2 & ro2 & X2 & Y2 & C2 & R2). exists (code ++ code2), ro2.
      split; [exact (extends_trans _ _ _ X X2)|]. split; [lia|]. split.
      + intros c b rest n Tk Mk L F. destruct n as [|n]; [lia|]. cbn [write_common]. rewrite <- app_assoc in Tk. cbn [app] in Tk.
        rewrite (C c b0 (us ++ b :: rest) n Tk); [|rewrite B; cbn; tauto|exact L|lia]. cbn [bindw]. rewrite token_after. cbn [hd]. rewrite B, Z.eqb_refl, get_after.
        rewrite (C2 _ b rest n); [rewrite after_after; reflexivity|reflexivity|exact Mk|exact L|].
        rewrite after_toks. rewrite Tk in F. rewrite app_length in F. cbn [length] in F. pose proof (gitem_tokens _ _ G). lia.
      + intros env l It roF Xf Lf. inversion It as [|? l1 ? l2 I1 I2]; subst. cbn [flat_map].
        pose proof (gitem_tokens _ _ G). rewrite app_length. cbn [length]. intros e s t n x Rm.
        apply (writes_app code code2 (2 * Z.of_nat (length ts) + 6) (2 * Z.of_nat (length us) + 6)).
        * apply R; [exact I1|exact (extends_trans _ _ _ X2 Xf)|exact Lf].
        * apply R2; assumption.
        * eapply room_mono; [exact Rm|lia].
  Qed.

  Lemma gitems_plain ts is : gitems str lev ts is -> forall c rest, toks c = ts ++ rest ->
    ~ In (token c) [sARRAY; sFILE; sTEXTFILE; sPOINTER; sVAR_PARM; tCOMMA; tRPAREN].
  Proof.
    assert (P : forall us i, gitem str lev us i -> forall c rest, toks c = us ++ rest -> ~ In (token c) [sARRAY; sFILE; sTEXTFILE; sPOINTER; sVAR_PARM; tCOMMA; tRPAREN]).
    { intros us i [vs e T G _ _ _|vs e T b ws w G _ _ _ _ _ _|a A] c rest E X.
      - apply (starts_token _ _ _ (expr_plain _ _ G) E). cbn [In] in *. tauto.
      - rewrite <- app_assoc in E. apply (starts_token _ _ _ (expr_plain _ _ G) E). cbn [In] in *. tauto.
      - unfold token, cur in X. rewrite E in X. cbn [app hd] in X. rewrite A in X. cbn [In] in X. repeat (destruct X as [X|X]; [discriminate X|]); exact X. }
    intros [us i G|us i b vs js G _ _] c rest E; [exact (P _ _ G _ _ E)|]. rewrite <- app_assoc in E. exact (P _ _ G _ _ E).
  Qed.

  (** ** The file *)

  Lemma file_loads x env : vty x = xWord -> computes lev [refer lev oLDS x] 1 [x] env [env x mod 65536].
  Proof.
    intros T. apply (load_word lev oLDS Word env x (env x)); [cbn; tauto| |reflexivity].
    intros s a H. rewrite T in H. exact H.
  Qed.

  Lemma file_var f x rest c : spells_file f x -> addressable lev x -> toks c = f :: rest -> g_level c = lev ->
    forall o, file_number o c = Some (true, after c rest [refer lev oLDS x]).
  Proof.
    intros (K & Lv & Of & _) Ad Tk G o. unfold file_number.
    assert (Cu : cur c = f) by (unfold cur; rewrite Tk; reflexivity).
    assert (Tc : token c = sTEXTFILE) by (unfold token; rewrite Cu; exact K).
    rewrite Tc, Cu. cbn [existsb Z.eqb orb sPOINTER sVAR_PARM sARRAY sTEXTFILE sFILE Pos.eqb].
    rewrite (stack_ref_eq lev oLDS (tsym f) x c); [|cbn; tauto|exact Lv|exact Of|exact G|exact Ad].
    rewrite append_code, (get_code c f rest _ Tk). reflexivity.
  Qed.

  Lemma file_default o x c : sLevel o = vlev x -> vOffset o = voff x -> addressable lev x -> g_level c = lev ->
    ~ In (token c) [sARRAY; sFILE; sTEXTFILE; sPOINTER; sVAR_PARM; tCOMMA; tRPAREN] ->
    file_number o c = Some (true, after c (toks c) [refer lev oLDS x]).
  Proof.
    intros Lv Of Ad G N. unfold file_number. cbn [existsb].
    rewrite (not_in_eqb _ (token c) sPOINTER N), (not_in_eqb _ (token c) sVAR_PARM N), (not_in_eqb _ (token c) sARRAY N),
      (not_in_eqb _ (token c) sFILE N), (not_in_eqb _ (token c) sTEXTFILE N) by (cbn; tauto). cbn [orb].
    rewrite (stack_ref_eq lev oLDS o x c); [reflexivity|cbn; tauto|exact Lv|exact Of|exact G|exact Ad].
  Qed.
End Items.
