(** Calls: parameters, return, result. *)

From Coq Require Import ZArith Bool List Lia ZifyBool.
From Verif Require Import Words WordLemmas State StateLemmas Opcodes EncodeModel SetModel LongModel Machine VmSpec
  LongSpec VmProofs MemProofs MultiProofs LongProofs CallProofs ExprModel ExprSpec ExprRun ExprOps ExprLoad ExprProofs ExprMain ExprAccept ExprTotal
  StmtModel StmtSpec StmtPlain StmtRun StmtStore ArrModel ArrSpec ArrProofs ActModel ActSpec ActProofs.
From Verif Require DeclModel DeclSpec.
Import ListNotations.
Open Scope Z_scope.
Local Transparent rewrites.

Lemma rdb_low s i w : c_ssz (cf s) mod 2 = 0 -> rd s i = Some w -> rdb s (2 * i) = Some (w mod 256).
Proof.
  intros Ev R. apply rd_some in R. destruct R as (R & ->). unfold in_word in R. unfold rdb, in_byte.
  replace ((0 <=? 2 * i) && (2 * i <? c_ssz (cf s))) with true by lia.
  unfold byte_of. replace ((2 * i) mod 2 =? 0) with true by lia. replace (2 * i / 2) with i by lia. unfold u8, u16. f_equal. symmetry. apply mod_256.
Qed.

(** Words at an even address are a number of the type. *)
Lemma words_contain s t a v : c_ssz (cf s) mod 2 = 0 -> a mod 2 = 0 -> class_of t <> None -> storable t v = true ->
  (forall k w, nth_error (words t v) k = Some w -> rd s (a / 2 + Z.of_nat k) = Some w) -> contains s t a v.
Proof.
  intros Ev Ea Cl St W.
  assert (W0 : rd s (a / 2) = Some (v mod 65536)).
  { rewrite <- (W 0%nat (v mod 65536)); [f_equal; lia|]. unfold words. destruct (is32 t); reflexivity. }
  assert (B : rdb s a = Some (v mod 256)).
  { replace a with (2 * (a / 2)) by lia. rewrite (rdb_low s (a / 2) _ Ev W0), mod_256. reflexivity. }
  destruct t; try (exfalso; apply Cl; reflexivity); cbn [contains]; try exact W0.
  - exists (v mod 65536). split; [|reflexivity]. cbn [element]. exists (v mod 256). split; [exact B|]. apply sbyte_word, St.
  - exists (v mod 65536). split; [|reflexivity]. cbn [element]. rewrite B. f_equal. cbn [storable] in St. lia.
  - split; [exact Ea|]. split; [exact W0|]. apply (W 1%nat). reflexivity.
  - split; [exact Ea|]. split; [exact W0|]. apply (W 1%nat). reflexivity.
  - exists (v mod 65536). split; [|reflexivity]. cbn [element]. rewrite B. f_equal. cbn [storable] in St. lia.
Qed.

Lemma passed_ok lev env adr p a v s f ts : described f p -> garg lev p ts a -> provided lev s env adr a -> passed env adr p a v ->
  class_of (ptype p) <> None /\ storable (ptype p) v = true.
Proof.
  intros D G Pv P. destruct G as [t ts e _ _ _|t b x _ Tx _]; cbn [passed ptype] in *.
  - split; [apply D|apply P].
  - split; [discriminate|]. cbn [provided] in Pv. subst v.
    assert (A : var_address lev s x (adr x)) by (apply Pv; [repeat split|reflexivity]).
    pose proof (address_range _ _ _ _ A). cbn. lia.
Qed.

(** The parameters in front of the frame of a procedure *)
Lemma receive k s ps : 0 < k -> regular s -> c_ssz (cf s) mod 2 = 0 -> slots ps <= 32768 ->
  forall vs, length vs = length ps ->
  Forall2 (fun p v => class_of (ptype p) <> None /\ storable (ptype p) v = true) ps vs ->
  slots ps <= fp s -> fp s mod 2 = 0 -> fp s <= sp s ->
  (forall j w, nth_error (arg_words ps vs) j = Some w -> rd s ((fp s - slots ps) / 2 + Z.of_nat j) = Some w) ->
  received k s ps vs.
Proof.
  intros K Rg Ev. induction ps as [|p ps IH]; intros Sl vs Ln Ok Lo Ef Fs W.
  - destruct vs; [constructor|discriminate].
  - destruct vs as [|v vs]; [discriminate|]. inversion Ok as [|? ? ? ? (Cl & St) Ok']; subst. cbn [arg_words] in W.
    rewrite slots_cons in *. pose proof (slots_pos ps). pose proof (slot_words p v) as Sw. pose proof (slots_even ps) as Se.
    unfold received. cbn [parm_vars]. constructor.
    + intros s' Sr Rd. set (off := - slots (p :: ps)).
      assert (Es : off = - (slot p + slots ps)) by reflexivity.
      pose proof Sr as (Cf & _ & Fp & _).
      exists (fp s + off). split; [|split].
      * unfold var_address, parm_var. cbn [vlev voff]. fold off. replace (k =? 0) with false by lia.
        replace (k - k) with 0 by lia. exists (fp s'), off. split; [constructor|]. split.
        -- split; [lia|]. exists (- (off / 65536)). lia.
        -- assert (2 <= slot p) by (destruct p as [[]|]; cbn; lia). replace (off >=? 0) with false by lia. rewrite Fp. split; [destruct Rg; lia|]. exists 0. lia.
      * assert (size_of (ptype p) <= slot p) by (destruct p as [[]|]; cbn; lia).
        unfold parm_var; cbn [vty]. fold (ptype p). lia.
      * unfold parm_var; cbn [vty]. fold (ptype p). apply words_contain; auto.
        -- rewrite Cf. exact Ev.
        -- lia.
        -- intros j w J. assert (Jl : (j < length (words (ptype p) v))%nat) by (apply nth_error_Some; congruence).
           rewrite Rd by lia. rewrite <- (W j w).
           ++ reflexivity.
           ++ rewrite nth_error_app1 by exact Jl. exact J.
    + apply IH; auto; try lia. intros j w J. rewrite <- (W (length (words (ptype p) v) + j)%nat w).
      * f_equal. lia.
      * rewrite nth_error_app2 by lia. replace (_ + j - _)%nat with j by lia. exact J.
Qed.

Lemma inds_run s z : -32768 <= z <= 32767 -> 0 <= sp s + z < 65536 ->
  exec_insn s (mkOp oINDS 0 (z mod 65536)) = Ok (with_pc (with_sp s (sp s + z)) (u16 (pc s + 3))).
Proof.
  intros H1 H2. change (exec_insn s (mkOp oINDS 0 (z mod 65536))) with (next 3 (exec24 INDS s (z mod 65536))). cbn [exec24].
  replace (u16 (sp s + s16 (z mod 65536))) with (sp s + z).
  - reflexivity.
  - change (z mod 65536) with (u16 z). rewrite s16_u16, s16_small by lia. symmetry. apply u16_small. lia.
Qed.

Lemma release_eq z c r code : 0 <= z <= 32768 -> (if z =? 0 then after c r code else data_op oINDS (- z) (after c r code)) = after c r (code ++ release z).
Proof.
  intros H. unfold release. destruct (z =? 0) eqn:E; [rewrite app_nil_r; reflexivity|].
  unfold data_op, emit. change (has8 oINDS) with false. change (has16 oINDS) with true. cbn [andb error_if].
  replace ((- z <? -32768) || (65535 <? - z)) with false by lia. cbn [error_if]. rewrite append_after. reflexivity.
Qed.

Lemma call_eq p c r code : 0 <= pLevel p < 255 -> 0 <= pLabel p < 65536 ->
  procedure_call_op p (after c r code) = after c r (code ++ [call_op p]).
Proof.
  intros H1 H2. unfold procedure_call_op, emit. change (has8 oPCAL) with true. change (has16 oPCAL) with true. cbn [andb].
  rewrite u16_small by lia. replace (255 <? pLevel p + 1) with false by lia.
  replace ((pLabel p <? -32768) || (65535 <? pLabel p)) with false by lia. cbn [error_if]. rewrite append_after.
  unfold call_op. do 4 f_equal; [unfold u8; apply Z.mod_small; lia|apply u16_small; lia].
Qed.

Lemma args_ok lev env adr s ps ts l : gargs lev ps ts l -> forall fs, Forall2 described fs ps -> forall vs,
  all_passed env adr ps l vs -> Forall (provided lev s env adr) l ->
  Forall2 (fun p v => class_of (ptype p) <> None /\ storable (ptype p) v = true) ps vs.
Proof.
  induction 1 as [p ts a G|p ts a b ps us l G B Gs IH]; intros fs D vs A Pv.
  - inversion D as [|f ? ? ? Df D0]; subst. inversion A as [|? ? ? ? v ? Pa A0]; subst. inversion A0; subst. inversion Pv; subst.
    constructor; [|constructor]. eapply passed_ok; eauto.
  - inversion D as [|f ? fs' ? Df D0]; subst. inversion A as [|? ? ? ? v ? Pa A0]; subst. inversion Pv; subst.
    constructor; [eapply passed_ok; eauto|]. eapply IH; eauto.
Qed.
Lemma all_ok lev env adr s ps ts l : glist lev ps ts l -> forall fs, Forall2 described fs ps -> forall vs,
  all_passed env adr ps l vs -> Forall (provided lev s env adr) l ->
  Forall2 (fun p v => class_of (ptype p) <> None /\ storable (ptype p) v = true) ps vs.
Proof. intros [|a b Ha Hb|a ps' us l' b Ha G Hb] fs D vs A Pv; [inversion A; subst; constructor|inversion A; subst; constructor|]. eapply args_ok; eauto. Qed.

(** From the state in front of the call on; the words [us] below the arguments
    are the container *)
Lemma call_part p ps env adr l vs s s0 s1 us :
  0 <= pLevel p < 255 -> slots ps <= 32768 -> all_passed env adr ps l vs ->
  Forall2 (fun p v => class_of (ptype p) <> None /\ storable (ptype p) v = true) ps vs ->
  regular s -> 0 <= sp s -> pushed s s0 us -> pushed s0 s1 (arg_words ps vs) -> room s1 5 ->
  forall s2, exec_insn s1 (call_op p) = Ok s2 ->
    pc s2 = pLabel p /\ lsp s2 = pLevel p + 1 /\ received (pLevel p + 1) s2 ps vs /\ (forall i, i <= sp s / 2 -> rd s2 i = rd s i) /\
    fp s2 = sp s0 + slots ps + 2 /\ cf s2 = cf s /\
    forall s3, may_return s2 s3 ->
    exists s4, exec_list (mkOp oRET 0 0 :: release (slots ps)) s3 = Ok s4 /\
      cf s4 = cf s /\ csp s4 = csp s /\ fp s4 = fp s /\ lsp s4 = lsp s /\ sp s4 = sp s0 /\
      pc s4 = (pc s1 + 4 + 3 * Z.of_nat (length (release (slots ps)))) mod 65536 /\ (forall i, rd s4 i = rd s3 i).
Proof.
  intros Lv Sl A Ok Rg Ps P0 P1 Rm s2 E2.
  pose proof Rg as (Rf & Rc & Rl & Re). pose proof (arg_words_length env adr ps l vs A) as Len.
  pose proof (slots_pos ps) as Sp0. pose proof (slots_even ps) as Se.
  pose proof (pushed_app _ _ _ _ _ P0 P1) as P.
  pose proof P0 as (_ & Q2 & _ & Q4). pose proof P1 as (_ & U2 & U3 & U4).
  pose proof P as ((Cf & Cs & Fp & Ls & Fc) & S2 & S3 & S4).
  rewrite <- Fp in Rf. rewrite <- Cs in Rc. rewrite <- Ls in Rl.
  unfold call_op in E2.
  destruct (pcal_ok s1 (pLevel p + 1) (pLabel p) s2 Rm Rf Rc Rl ltac:(lia) E2) as
    (B1 & B2 & B3 & B4 & B5 & B6 & B7 & B8 & _).
  split; [exact B1|]. split; [exact B6|].
  assert (H1 : sp s / 2 <= sp s1 / 2) by (apply Z.div_le_mono; lia).
  pose proof Rm as (M1 & M2 & M3 & M4).
  split; [|split; [|split; [lia|split; [congruence|]]]].
  - apply receive; try lia.
    + repeat split; try lia; rewrite ?B4; try lia.
    + rewrite B5. exact M4.
    + clear - Ok. induction Ok; cbn [length]; congruence.
    + exact Ok.
    + intros j w J. assert ((j < length (arg_words ps vs))%nat) by (apply nth_error_Some; congruence).
      rewrite B8.
      * rewrite <- (U3 j w J). f_equal. lia.
      * lia.
  - intros i Hi. rewrite B8 by lia. apply S4, Hi.
  - intros s3 (T1 & T2 & T3).
    destruct (call_return s1 (pLevel p + 1) (pLabel p) s2 s3 0 0 Rm Rf Rc Rl ltac:(lia) E2 T1 T2 T3) as
      (s4 & E4 & C1 & C2 & C3 & C4 & C5 & C6 & C7).
    cbn [exec_list]. rewrite E4. unfold release. destruct (slots ps =? 0) eqn:Z0; cbn [exec_list length].
    + exists s4. split; [reflexivity|]. do 4 (split; [congruence|]). split; [lia|]. split; [rewrite C1; f_equal; lia|exact C7].
    + rewrite inds_run by lia. eexists. split; [reflexivity|].
      cbn [cf csp fp lsp sp pc with_pc with_sp]. do 4 (split; [congruence|]). split; [lia|]. split.
      * rewrite C1. unfold u16. rewrite Zplus_mod_idemp_l. f_equal; lia.
      * intros i. rewrite <- C7. reflexivity.
Qed.

Lemma slots_tokens lev ps ts l : glist lev ps ts l -> slots ps <= 4 * Z.of_nat (length ts).
Proof.
  assert (X : forall p, slot p <= 4) by (intros [[]|]; cbn; lia).
  assert (Y : forall ps ts l, gargs lev ps ts l -> slots ps <= 4 * Z.of_nat (length ts)).
  { induction 1 as [p ts' a G|p ts' a b ps' us l' G B Gs IH]; rewrite slots_cons; pose proof (X p); pose proof (garg_tokens _ _ _ _ G).
    - cbn [slots fold_right]. lia.
    - rewrite app_length. cbn [length]. lia. }
  intros [|a b Ha Hb|a ps' us l' b Ha G Hb]; cbn [slots fold_right length]; try lia.
  fold (slots ps'). specialize (Y _ _ _ G). rewrite app_length. lia.
Qed.

(** The container is pushed, with whatever was there. *)
Lemma inds_pushed s m : room s (Z.of_nat m) ->
  forall q, exists us, length us = m /\ pushed s (with_pc (with_sp s (sp s + 2 * Z.of_nat m)) q) us.
Proof.
  intros (R1 & R2 & R3 & R4) q. exists (map (fun k => u16 (mem s (sp s / 2 + 1 + Z.of_nat k))) (seq 0 m)).
  split; [rewrite map_length, seq_length; reflexivity|]. split; [repeat split|]. rewrite map_length, seq_length. split; [reflexivity|]. split.
  - intros k v K. rewrite nth_error_map in K.
    destruct (nth_error (seq 0 m) k) as [j|] eqn:E; [|discriminate]. cbn in K. injection K as <-.
    assert (Hk : (k < m)%nat) by (rewrite <- (seq_length m 0); apply nth_error_Some; congruence).
    assert (j = k).
    { apply (nth_error_nth _ _ 0%nat) in E. rewrite seq_nth in E by exact Hk. lia. }
    subst j. rewrite rd_in; [reflexivity|]. unfold in_word. cbn [cf with_pc with_sp]. lia.
  - reflexivity.
Qed.

Lemma low_byte s a b : c_ssz (cf s) mod 2 = 0 -> a mod 2 = 0 -> rdb s a = Some b -> exists w, rd s (a / 2) = Some w /\ w mod 256 = b.
Proof.
  intros Ev Ea R. unfold rdb in R. destruct (in_byte s a) eqn:I; [|discriminate]. injection R as <-.
  unfold in_byte in I. exists (u16 (mem s (a / 2))). split.
  - apply rd_in. unfold in_word. lia.
  - unfold byte_of. replace (a mod 2 =? 0) with true by lia. unfold u8, u16. apply mod_256.
Qed.

(** A variable in front of the frame *)
Lemma found lev k t off s v : 0 < k -> lev = k -> -32768 <= off < 0 -> 0 <= fp s + off < 65536 ->
  located lev s (mkVar t k off) v -> contains s t (fp s + off) v.
Proof.
  intros K -> O F H. destruct (H s ltac:(repeat split) ltac:(reflexivity)) as (a & A & _ & C).
  unfold var_address in A. cbn [vlev voff vty] in A, C. replace (k =? 0) with false in A by lia.
  replace (k - k) with 0 in A by lia. destruct A as (g & z & R & (Z1 & j & Z2) & (W1 & i & W2)).
  assert (g = fp s) by (inversion R; reflexivity). assert (z = off) by lia. subst g z. replace (off >=? 0) with false in W2 by lia.
  replace (fp s + off) with a by lia. exact C.
Qed.

Section Call.
  Variables (lev : Z) (p : proc) (ps : list parm) (ts : list tok) (l : list arg).
  Hypothesis D : Forall2 described (pFormals p) ps.
  Hypothesis G : glist lev ps ts l.
  Hypothesis Lv : 0 <= pLevel p < 255.
  Hypothesis Lb : 0 <= pLabel p < 65536.
  Hypothesis Sl : slots ps <= 32768.

  Lemma few_words env adr vs : all_passed env adr ps l vs -> Z.of_nat (length (arg_words ps vs)) <= 2 * Z.of_nat (length ts).
  Proof using G.
    intros A. pose proof (arg_words_length env adr ps l vs A) as E. pose proof (slots_tokens _ _ _ _ G). lia.
  Qed.

  Lemma procedure_ok : exists code,
    (forall c name rest n, toks c = name :: ts ++ rest -> (ts = [] -> tk (hd eoftok rest) <> tLPAREN) -> g_level c = lev ->
       (4 * length (toks c) + 4 <= n)%nat ->
       proc_statement n p c = ADone (after c rest (code ++ call_op p :: release (slots ps)))) /\
    calls lev p code (release (slots ps)) 0 ps l (2 * Z.of_nat (length ts)) (fun _ _ _ _ => True).
  Proof.
    destruct (list_after lev ps ts l G (pFormals p) D) as (code & C & R). exists code. pose proof (slots_pos ps). split.
    - intros c name rest n Tk H0 L F. unfold proc_statement.
      rewrite (get_at _ _ _ Tk). rewrite (C (after c (ts ++ rest) []) rest n eq_refl H0 L).
      + rewrite after_after. cbn [app]. rewrite call_eq by assumption.
        replace (if 0 <? slots ps then data_op oINDS (- slots ps) (after c rest (code ++ [call_op p])) else after c rest (code ++ [call_op p]))
          with (if slots ps =? 0 then after c rest (code ++ [call_op p]) else data_op oINDS (- slots ps) (after c rest (code ++ [call_op p])))
          by (destruct (slots ps =? 0) eqn:E1, (0 <? slots ps) eqn:E2; try reflexivity; lia).
        rewrite release_eq by lia. rewrite <- app_assoc. reflexivity.
      + rewrite after_toks. rewrite Tk in F. cbn [length] in F. lia.
    - intros env adr vs s A Rm Rg Pv.
      destruct (R env adr vs A s) as (s1 & E1 & P1); [eapply room_mono; [exact Rm|lia]|exact Pv|].
      exists s1. split; [exact E1|]. split; [apply P1|]. split; [apply P1|]. intros s2 E2.
      assert (W : Z.of_nat (length (arg_words ps vs)) <= 2 * Z.of_nat (length ts)) by (eapply few_words; eauto).
      destruct (call_part p ps env adr l vs s s s1 [] Lv Sl A (all_ok lev env adr s ps ts l G _ D vs A Pv) Rg) with (s2 := s2)
        as (B1 & B2 & B3 & B4 & B5 & B6 & B7); auto using pushed_nil.
      { apply Rm. }
      { eapply room_mono; [eapply room_pushed; [exact P1|exact Rm]|lia]. }
      repeat (split; [assumption|]). intros s3 M. destruct (B7 s3 M) as (s4 & E4 & K1 & K2 & K3 & K4 & K5 & K6 & K7).
      exists s4. repeat (split; [first [assumption|lia]|]). exact I.
  Qed.

  Lemma function_ok t : map_type (pType p) = Some t -> pSize p = size_of t -> slots (ByValue t :: ps) <= 32768 -> exists code,
    (forall c name rest n, toks c = name :: ts ++ rest -> (ts = [] -> tk (hd eoftok rest) <> tLPAREN) -> g_level c = lev ->
       (4 * length (toks c) + 4 <= n)%nat ->
       function_designator n p c = Done t (after c rest (container t :: code ++ call_op p :: release (slots ps)))) /\
    calls lev p (container t :: code) (release (slots ps)) (slot (ByValue t)) ps l (2 * Z.of_nat (length ts) + 2) (result_left p t ps).
  Proof.
    intros Mt Sz Sl'. destruct (list_after lev ps ts l G (pFormals p) D) as (code & C & R). exists code. pose proof (slots_pos ps). split.
    - intros c name rest n Tk H0 L F. unfold function_designator. rewrite Mt, Sz.
      replace (getToken (data_op oINDS (DeclModel.INT_ALIGNUP (size_of t)) c)) with (after c (ts ++ rest) [container t]).
      2:{ unfold container. replace (data_op oINDS (DeclModel.INT_ALIGNUP (size_of t)) c) with (append (mkOp oINDS 0 (slot (ByValue t))) c)
            by (destruct t; reflexivity). rewrite append_code, (get_code c name (ts ++ rest) _ Tk). reflexivity. }
      rewrite (C (after c (ts ++ rest) [container t]) rest n eq_refl H0 L).
      + rewrite after_after, call_eq, release_eq by (assumption || lia). rewrite <- app_assoc. reflexivity.
      + rewrite after_toks. rewrite Tk in F. cbn [length] in F. lia.
    - intros env adr vs s A Rm Rg Pv.
      assert (Sv : slot (ByValue t) = 2 * Z.of_nat (length (words t 0))) by apply (slot_words (ByValue t) 0).
      pose proof (words_size t 0) as Ws. pose proof Rm as (R1 & R2 & R3 & R4).
      set (m := length (words t 0)) in *.
      destruct (inds_pushed s m) with (q := u16 (pc s + 3)) as (us & Lu & P0); [eapply room_mono; [exact Rm|lia]|].
      assert (E0 : exec_insn s (container t) = Ok (with_pc (with_sp s (sp s + 2 * Z.of_nat m)) (u16 (pc s + 3)))).
      { unfold container. rewrite <- (Z.mod_small (slot (ByValue t)) 65536) by lia. rewrite inds_run by lia. rewrite Sv. reflexivity. }
      set (s0 := with_pc (with_sp s (sp s + 2 * Z.of_nat m)) (u16 (pc s + 3))) in *.
      assert (Pv0 : Forall (provided lev s0 env adr) l) by (eapply Forall_impl; [|exact Pv]; intros x; apply (provided_mono lev s s0 us env adr x P0)).
      assert (Rm0 : room s0 (2 * Z.of_nat (length ts) + 2 + 5 - Z.of_nat m)) by (rewrite <- Lu; apply (room_pushed s s0 _ us P0); exact Rm).
      destruct (R env adr vs A s0) as (s1 & E1 & P1); [eapply room_mono; [exact Rm0|lia]|exact Pv0|].
      exists s1. cbn [exec_list]. rewrite E0. split; [exact E1|].
      pose proof (pushed_app _ _ _ _ _ P0 P1) as P. split; [apply P|]. split; [apply P|]. intros s2 E2.
      pose proof (few_words env adr vs A) as Fw.
      destruct (call_part p ps env adr l vs s s0 s1 us Lv Sl A (all_ok lev env adr s ps ts l G _ D vs A Pv) Rg R1 P0 P1) with (s2 := s2)
        as (B1 & B2 & B3 & B4 & B5 & B6 & B7); auto.
      { eapply room_mono; [eapply room_pushed; [exact P1|exact Rm0]|lia]. }
      repeat (split; [assumption|]). intros s3 M. destruct (B7 s3 M) as (s4 & E4 & K1 & K2 & K3 & K4 & K5 & K6 & K7).
      exists s4. assert (Es : sp s0 = sp s + slot (ByValue t)) by (rewrite Sv; reflexivity).
      repeat (split; [first [assumption|lia]|]).
      intros v F3 Lo. rewrite slots_cons in Sl'. unfold result_var in Lo. rewrite slots_cons in Lo.
      pose proof (arg_words_length env adr ps l vs A) as Aw.
      assert (Cn : contains s3 t (sp s + 2) v).
      { replace (sp s + 2) with (fp s3 + - (slot (ByValue t) + slots ps)) by lia.
        apply (found (pLevel p + 1) (pLevel p + 1)); try lia; [|exact Lo].
        assert (2 <= slot (ByValue t)) by (destruct t; cbn; lia). lia. }
      assert (H2 : (sp s + 2) / 2 = sp s / 2 + 1) by lia. destruct Rg as (_ & _ & _ & Re).
      assert (Ev : c_ssz (cf s3) mod 2 = 0) by (destruct M as (M1 & _); rewrite M1, B6; exact R4).
      assert (Rl : forall b, rdb s3 (sp s + 2) = Some b -> b mod 256 = v mod 256 -> exists w, rd s4 (sp s / 2 + 1) = Some w /\ w mod 256 = v mod 256).
      { intros b Hb Hv. destruct (low_byte s3 (sp s + 2) b Ev ltac:(lia) Hb) as (w & W1 & W2). exists w. rewrite K7, <- H2. split; [exact W1|].
        rewrite <- Hv, <- W2, Zmod_mod. reflexivity. }
      assert (W1 : forall v', rd s3 ((sp s + 2) / 2) = Some v' -> forall j w, nth_error [v'] j = Some w -> rd s4 (sp s / 2 + 1 + Z.of_nat j) = Some w).
      { intros v' Hv [|[|j]] w J; cbn [nth_error] in J; try discriminate J. injection J as <-. rewrite K7, <- Hv. f_equal. lia. }
      destruct t; cbn [size_of Z.eqb Pos.eqb contains] in *; try (apply W1; exact Cn).
      + destruct Cn as (w & (b & Hb & (_ & j & Hj)) & Hw). apply (Rl b Hb). destruct (b <? 128); lia.
      + destruct Cn as (w & Hb & Hw). apply (Rl w Hb). rewrite Hw. apply mod_256.
      + destruct Cn as (_ & C0 & C1). intros [|[|j]] w J; cbn [nth_error words is32 class_of] in J; try (destruct j; discriminate J); injection J as <-; rewrite K7, <- ?C0, <- ?C1; f_equal; lia.
      + destruct Cn as (_ & C0 & C1). intros [|[|j]] w J; cbn [nth_error words is32 class_of] in J; try (destruct j; discriminate J); injection J as <-; rewrite K7, <- ?C0, <- ?C1; f_equal; lia.
      + destruct Cn as (w & Hb & Hw). apply (Rl w Hb). rewrite Hw. apply mod_256.
  Qed.
End Call.
