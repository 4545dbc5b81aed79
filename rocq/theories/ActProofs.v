(** Calls: the code of the arguments. *)

From Coq Require Import ZArith Bool List Lia ZifyBool.
From Verif Require Import Words WordLemmas State StateLemmas Opcodes EncodeModel SetModel LongModel Machine VmSpec
  LongSpec VmProofs MemProofs MultiProofs LongProofs CallProofs ExprModel ExprSpec ExprRun ExprOps ExprLoad ExprProofs ExprMain ExprAccept ExprTotal
  StmtModel StmtSpec StmtPlain StmtRun StmtStore ArrModel ArrSpec ArrProofs ActModel ActSpec.
From Verif Require DeclModel DeclSpec.
Import ListNotations.
Open Scope Z_scope.
Local Transparent rewrites.

Definition ptype (p : parm) : etype := match p with ByValue t => t | ByVar _ => xWord end.

Lemma slot_words p v : slot p = 2 * Z.of_nat (length (words (ptype p) v)).
Proof. destruct p as [t|t]; [destruct t|]; reflexivity. Qed.
Lemma slots_pos ps : 0 <= slots ps.
Proof. induction ps as [|p ps IH]; cbn [slots fold_right]; [lia|]. fold (slots ps). rewrite (slot_words p 0). lia. Qed.
Lemma slots_cons p ps : slots (p :: ps) = slot p + slots ps.
Proof. reflexivity. Qed.
Lemma slots_even ps : slots ps mod 2 = 0.
Proof. induction ps as [|p ps IH]; [reflexivity|]. rewrite slots_cons, (slot_words p 0). lia. Qed.

(** ** The address of a variable *)

Lemma las_ref_eq lev v x c :
  sLevel v = vlev x -> vOffset v = voff x -> g_level c = lev -> addressable lev x ->
  stack_ref oLAS v c = append (refer lev oLAS x) c.
Proof.
  intros L O G (A1 & A2 & A3). unfold stack_ref, refer. rewrite L, O, G.
  destruct (vlev x =? 0) eqn:E; cbn [andb].
  - change (0 <=? level0 oLAS) with true. cbn iota. replace (voff x <? 0) with false by lia.
    unfold emit. change (has8 (level0 oLAS)) with false. change (has16 (level0 oLAS)) with true. cbn [andb error_if].
    replace ((voff x <? -32768) || (65535 <? voff x)) with false by lia. cbn [error_if].
    f_equal. f_equal. apply u16_small. lia.
  - unfold emit. change (has8 oLAS) with true. change (has16 oLAS) with true. cbn [andb].
    rewrite u16_small by lia. replace (255 <? lev - vlev x) with false by lia. cbn [error_if].
    replace ((voff x <? -32768) || (65535 <? voff x)) with false by lia. cbn [error_if].
    f_equal. unfold u8, u16. f_equal. apply Z.mod_small. lia.
Qed.

Lemma address_range lev s x a : var_address lev s x a -> 0 <= a < 65536.
Proof.
  unfold var_address. destruct (vlev x =? 0).
  - intros (H & _). lia.
  - intros (g & z & _ & _ & H & _). lia.
Qed.

Lemma run_las lev s x a : room s 1 -> var_address lev s x a ->
  exists s', exec_list [refer lev oLAS x] s = Ok s' /\ pushed s s' [a].
Proof.
  intros R A. pose proof (address_range _ _ _ _ A) as B. unfold var_address in A. unfold refer. cbn [exec_list].
  destruct (vlev x =? 0).
  - change (level0 oLAS) with oLA.
    assert (X : exists s', exec_insn s (mkOp oLA 0 (voff x)) = Ok s' /\ stack_effect s s' 0 [a] /\ pc s' = u16 (pc s + 3)).
    { change (exec_insn s (mkOp oLA 0 (voff x))) with (next 3 (exec24 LA s (voff x))). cbn [exec24].
      rewrite (global_ea_u16_0 _ _ _ A). apply ret_next. apply push_effect; [exact R|lia]. }
    destruct X as (s' & E & F & _). rewrite E. exists s'. split; [reflexivity|]. apply effect_pushed, F.
  - destruct (las_correct s (lev - vlev x) (voff x mod 65536) a R A) as (s' & E & F & _).
    rewrite E. exists s'. split; [reflexivity|]. apply effect_pushed, F.
Qed.

Lemma map_kind t : class_of t <> None -> map_type (kind_of t) = Some t.
Proof. intros H. destruct t; try reflexivity; exfalso; apply H; reflexivity. Qed.

(** ** One argument *)

Section Arguments.
  Variable lev : Z.

  Lemma arg_after f p ts a : described f p -> garg lev p ts a ->
    exists code,
    (forall c rest n, toks c = ts ++ rest -> ended rest -> g_level c = lev -> (4 * length (toks c) + 4 <= n)%nat ->
       actual n f c = LDone (slot p) (after c rest code)) /\
    forall env adr v, passed env adr p a v -> forall s, room s (2 * Z.of_nat (length ts)) -> provided lev s env adr a ->
      exists s', exec_list code s = Ok s' /\ pushed s s' (words (ptype p) v).
  Proof.
    intros D G. destruct G as [t ts e Ge Ty Ad|t a x Sp Tx Ad].
    - destruct D as (Cl & K). destruct (expr_after lev ts e t t Ge Ty Ad) as (code & C & R). exists code. split.
      + intros c rest n Tk En L F. unfold actual. destruct K as [K|(-> & K)]; rewrite K.
        * rewrite (map_kind t Cl). rewrite (C c rest n Tk En L F).
          destruct t; try (exfalso; apply Cl; reflexivity); reflexivity.
        * change (map_type 0x55) with (@None etype). cbv iota. change (0x55 =? sSUBRANGE) with true. cbv iota.
          rewrite (C c rest n Tk En L F). reflexivity.
      + intros env adr v (V & _) s Rm Pv. destruct (R env v V) as (_ & Cm). apply Cm; [exact Rm|exact Pv].
    - destruct D as (Cl & K & Ft). destruct Sp as (S1 & S2 & S3 & _). subst t.
      exists [refer lev oLAS x]. split.
      + intros c rest n Tk En L F. unfold actual. rewrite K.
        change (map_type 0x5a) with (@None etype). cbv iota. change (0x5a =? sSUBRANGE) with false. cbv iota.
        change (0x5a =? sVAR_PARM) with true. cbv iota.
        assert (X : exists vt, fType f = Some vt /\ (if vt =? sSUBRANGE then Some xInteger else map_type vt) = Some (vty x)).
        { destruct Ft as [Ft|(Tx & Ft)]; eexists; (split; [exact Ft|]).
          - rewrite (map_kind _ Cl). replace (kind_of (vty x) =? sSUBRANGE) with false by (destruct (vty x); reflexivity). reflexivity.
          - rewrite Tx. reflexivity. }
        destruct X as (vt & -> & ->). cbn [app] in Tk.
        destruct n as [|n]; [lia|]. unfold var_parameter. cbn [pointer_factor].
        assert (Cu : cur c = a) by (unfold cur; rewrite Tk; reflexivity).
        assert (T : token c = kind_of (vty x)) by (unfold token; rewrite Cu; exact S1).
        rewrite T, (map_kind _ Cl), Cu, (las_ref_eq lev (tsym a) x c S2 S3 L Ad). cbn [bindr].
        replace (teq (vty x) (vty x)) with true by (destruct (vty x); reflexivity). cbn [negb error_if of_expr].
        rewrite append_code, (get_code c a rest _ Tk). reflexivity.
      + intros env adr v Pa s Rm Pv. cbn [passed] in Pa. subst v. cbn [provided] in Pv.
        assert (A : var_address lev s x (adr x)) by (apply Pv; [repeat split|reflexivity]).
        pose proof (address_range _ _ _ _ A). cbn [ptype]. unfold words. cbn [is32 class_of]. rewrite Z.mod_small by lia.
        apply run_las; [eapply room_mono; [exact Rm|cbn; lia]|exact A].
  Qed.

  Lemma provided_mono s s1 ws env adr a : pushed s s1 ws -> provided lev s env adr a -> provided lev s1 env adr a.
  Proof.
    intros P H. destruct a as [e|x]; cbn [provided] in *.
    - intros y Hy. eapply located_mono; eauto.
    - intros s' S R. destruct P as (A1 & A2 & _ & A4). apply H.
      + apply (same_regs_trans _ _ _ A1 S).
      + assert (sp s / 2 <= sp s1 / 2) by (apply Z.div_le_mono; lia). intros i Hi. rewrite R by lia. apply A4. lia.
  Qed.

  (** The words of all arguments *)
  Fixpoint arg_words (ps : list parm) (vs : list Z) : list Z :=
    match ps, vs with
    | p :: ps, v :: vs => words (ptype p) v ++ arg_words ps vs
    | _, _ => []
    end.
  Lemma arg_words_length env adr ps l vs : all_passed env adr ps l vs -> slots ps = 2 * Z.of_nat (length (arg_words ps vs)).
  Proof.
    induction 1 as [|p ps a l v vs P H IH]; [reflexivity|]. rewrite slots_cons. cbn [arg_words]. rewrite app_length, IH, (slot_words p v). lia.
  Qed.

  Lemma words_size t z : Z.of_nat (length (words t z)) <= 2.
  Proof. unfold words. destruct (is32 t); cbn; lia. Qed.
  Lemma garg_tokens p ts a : garg lev p ts a -> (1 <= length ts)%nat.
  Proof.
    intros [t us e G _ _|t b x _ _ _]; [|cbn; lia].
    exact (proj2 (proj2 (proj2 grammar_nonempty)) us e G).
  Qed.

  Definition runs (code : list opType) (k : Z) (ps : list parm) (l : list arg) : Prop :=
    forall env adr vs, all_passed env adr ps l vs -> forall s, room s k -> Forall (provided lev s env adr) l ->
      exists s', exec_list code s = Ok s' /\ pushed s s' (arg_words ps vs).

  Lemma ended_sep b r : In (tk b) [0x2c; 0x29] -> ended (b :: r).
  Proof.
    intros I C. unfold continues in C. cbn [hd] in C. cbn [In] in I, C.
    destruct I as [I|[I|[]]]; rewrite <- I in C; repeat (destruct C as [C|C]; [discriminate C|]); exact C.
  Qed.

  Lemma args_after ps ts l : gargs lev ps ts l -> forall fs, Forall2 described fs ps ->
    exists code,
    (forall c rest n z, toks c = ts ++ rest -> ended rest -> g_level c = lev -> (4 * length (toks c) + 4 <= n)%nat ->
       actual_loop n fs z c = LDone (z + slots ps) (after c rest code)) /\
    runs code (2 * Z.of_nat (length ts)) ps l.
  Proof.
    induction 1 as [p ts a G|p ts a b ps us l G B Gs IH]; intros fs D.
    - inversion D as [|f ? ? ? Df D0]; subst. inversion D0; subst.
      destruct (arg_after f p ts a Df G) as (code & C & R). exists code. split.
      + intros c rest n z Tk En L F. cbn [actual_loop]. rewrite (C c rest n Tk En L F).
        rewrite slots_cons. cbn [slots fold_right]. f_equal; lia.
      + intros env adr vs A s Rm Pv. inversion A as [|? ? ? ? v ? Pa A0]; subst. inversion A0; subst.
        inversion Pv; subst. cbn [arg_words]. rewrite app_nil_r. eapply R; eauto.
    - inversion D as [|f ? fs' ? Df D0]; subst.
      destruct (arg_after f p ts a Df G) as (code & C & R). destruct (IH fs' D0) as (code' & C' & R').
      assert (Ne : fs' <> []).
      { intros ->. inversion D0; subst. inversion Gs. }
      exists (code ++ code'). split.
      + intros c rest n z Tk En L F. cbn [actual_loop]. rewrite <- app_assoc in Tk. cbn [app] in Tk.
        rewrite (C c (b :: us ++ rest) n Tk (ended_sep _ _ ltac:(rewrite B; cbn; tauto)) L F).
        destruct fs' as [|f' fs']; [congruence|].
        unfold expect. rewrite token_after. cbn [hd]. rewrite B. change (0x2c =? tCOMMA) with true. cbv iota. rewrite get_after.
        rewrite (C' (after c (us ++ rest) code) rest n (z + slot p)); [|reflexivity|exact En|exact L|].
        * rewrite after_after, slots_cons. f_equal; lia.
        * rewrite after_toks. rewrite Tk, !app_length in F. cbn [length] in F. rewrite app_length in *. lia.
      + intros env adr vs A s Rm Pv. inversion A as [|? ? ? ? v vs' Pa A0]; subst.
        inversion Pv as [|? ? Pv1 Pv2]; subst. rewrite app_length in Rm. cbn [length] in Rm.
        destruct (R env adr v Pa s) as (s1 & E1 & P1); [eapply room_mono; [exact Rm|lia]|exact Pv1|].
        pose proof (words_size (ptype p) v). pose proof (garg_tokens _ _ _ G).
        destruct (R' env adr vs' A0 s1) as (s2 & E2 & P2).
        * eapply room_mono; [eapply room_pushed; [exact P1|exact Rm]|lia].
        * eapply Forall_impl; [|exact Pv2]. intros x. apply (provided_mono s s1 _ env adr x P1).
        * exists s2. split; [rewrite exec_app, E1; exact E2|]. cbn [arg_words]. eapply pushed_app; eauto.
  Qed.

  (** The whole list *)
  Lemma list_after ps ts l : glist lev ps ts l -> forall fs, Forall2 described fs ps ->
    exists code,
    (forall c rest n, toks c = ts ++ rest -> (ts = [] -> tk (hd eoftok rest) <> tLPAREN) -> g_level c = lev ->
       (4 * length (toks c) + 4 <= n)%nat ->
       actual_list n fs c = LDone (slots ps) (after c rest code)) /\
    runs code (2 * Z.of_nat (length ts)) ps l.
  Proof.
    assert (Nil : runs [] 0 [] []).
    { intros env adr vs A s Rm Pv. inversion A; subst. exists s. split; [reflexivity|]. apply pushed_nil. }
    intros [|a b Ha Hb|a ps' us l' b Ha G Hb] fs D.
    - inversion D; subst. exists []. split; [|exact Nil].
      intros c rest n Tk H L F. cbn [app] in Tk. unfold actual_list. cbn [actual_loop].
      assert (T : (token c =? tLPAREN) = false) by (unfold token, cur; rewrite Tk; specialize (H eq_refl); lia).
      rewrite T. rewrite after_nil by exact Tk. reflexivity.
    - inversion D; subst. exists []. split.
      + intros c rest n Tk H L F. cbn [app] in Tk. unfold actual_list. cbn [actual_loop].
        assert (T : (token c =? tLPAREN) = true) by (unfold token, cur; rewrite Tk; cbn [hd]; lia).
        rewrite T, (get_at _ _ _ Tk). unfold expect. rewrite token_after. cbn [hd]. rewrite Hb, Z.eqb_refl, get_after. reflexivity.
      + intros env adr vs A s Rm Pv. apply (Nil env adr vs A s); [|exact Pv]. eapply room_mono; [exact Rm|cbn; lia].
    - destruct (args_after _ _ _ G fs D) as (code & C & R). exists code. split.
      + intros c rest n Tk H L F. cbn [app] in Tk. rewrite <- app_assoc in Tk. cbn [app] in Tk. unfold actual_list.
        assert (T : (token c =? tLPAREN) = true) by (unfold token, cur; rewrite Tk; cbn [hd]; lia).
        rewrite T, (get_at _ _ _ Tk). cbn [negb error_if].
        replace (match fs with [] => after c (us ++ b :: rest) [] | _ :: _ => after c (us ++ b :: rest) [] end) with (after c (us ++ b :: rest) []) by (destruct fs; reflexivity).
        rewrite (C (after c (us ++ b :: rest) []) (b :: rest) n 0 eq_refl); [|apply ended_sep; rewrite Hb; cbn; tauto|exact L|].
        * unfold expect. rewrite after_after, token_after. cbn [hd]. rewrite Hb, Z.eqb_refl, get_after. reflexivity.
        * rewrite after_toks. rewrite Tk in F. cbn [length] in F. lia.
      + intros env adr vs A s Rm Pv. apply (R env adr vs A s); [|exact Pv]. eapply room_mono; [exact Rm|]. cbn [length]. rewrite app_length. lia.
  Qed.
End Arguments.
