(** SIZEOF. *)

From Coq Require Import ZArith Bool List Lia ZifyBool.
From Verif Require Import Words WordLemmas State Opcodes EncodeModel Machine VmSpec ExprModel ExprSpec ExprRun ExprLoad ExprProofs ExprParse
  StmtModel StmtAccept ActProofs ActAccept ArrModel ArrCases AddrMain SizeModel SizeSpec.
Import ListNotations.
Open Scope Z_scope.

Lemma sized_token k : In k sized_kinds <-> 0x45 <= k <= 0x58 /\ ~ In k [0x51; 0x52; 0x54].
Proof. cbn. lia. Qed.
Lemma pointer_token k : In k pointer_kinds <-> k = 0x52 \/ k = 0x5a.
Proof. cbn. lia. Qed.

Lemma size_push c r a z : 0 <= z < 65536 -> data_op oPUSH z (after c r a) = after c r (a ++ [mkOp oPUSH 0 z]).
Proof.
  intros Z. unfold data_op, emit. change (has8 oPUSH) with false. change (has16 oPUSH) with true. cbn [andb error_if].
  replace ((z <? -32768) || (65535 <? z)) with false by lia. cbn [error_if]. rewrite append_after, u16_small by lia. reflexivity.
Qed.

(** What is compiled: the size modulo 2^16; 2 for a parameter passed by reference *)
Lemma size_code : forall alloc passed ts v z, gsize ts v -> size_is alloc passed v z -> (tk v = 0x5a -> z = 2) ->
  forall c rest, toks c = ts ++ rest ->
  exists c', size_function alloc c = Done xInteger c' /\ errorless c c' rest [mkOp oPUSH 0 (z mod 65536)].
Proof.
  intros alloc passed ts v z G S P2 c rest Tk. destruct G as [a b v d A1 A2 B D].
  exists (after c rest [mkOp oPUSH 0 (z mod 65536)]). split; [|apply after_errorless].
  cbn [app] in Tk. assert (Cu : cur c = a) by (unfold cur; rewrite Tk; reflexivity).
  unfold size_function, token. rewrite Cu, A1, A2, !Z.eqb_refl. cbn [andb]. f_equal.
  assert (E1 : expect tLPAREN eLPAREN (getToken c) = after c (v :: d :: rest) []).
  { rewrite (get_at c a _ Tk). unfold expect. rewrite token_after. cbn [hd]. rewrite B, Z.eqb_refl. reflexivity. }
  unfold sizeof_func. rewrite E1, token_after. cbn [hd]. change (cur (after c (v :: d :: rest) [])) with v.
  assert (X : (if existsb (Z.eqb (tk v)) sized_kinds then (u16 (vSize (tsym v)), after c (v :: d :: rest) [])
    else if existsb (Z.eqb (tk v)) pointer_kinds then (sPTR_SIZE, after c (v :: d :: rest) [])
    else if tk v =? sTYPE then (u16 (alloc v), after c (v :: d :: rest) [])
    else (0, error eINVARG (after c (v :: d :: rest) []))) = (z mod 65536, after c (v :: d :: rest) [])).
  { destruct (existsb (Z.eqb (tk v)) sized_kinds) eqn:I1.
    - rewrite kind_in, sized_token in I1. destruct S as [S1 S2|S|S|S]; try (exfalso; cbn in I1; lia). reflexivity.
    - destruct (existsb (Z.eqb (tk v)) pointer_kinds) eqn:I2.
      + rewrite kind_in, pointer_token in I2. destruct S as [S1 S2|S|S|S]; try (exfalso; cbn in S2; lia); [reflexivity|exfalso; lia|]. rewrite (P2 S). reflexivity.
      + apply not_true_iff_false in I1, I2. rewrite kind_in, sized_token in I1. rewrite kind_in, pointer_token in I2.
        destruct S as [S1 S2|S|S|S]; [tauto|tauto| |tauto]. rewrite S. reflexivity. }
  rewrite X. rewrite size_push by (apply Z.mod_pos_bound; lia). cbn [app]. rewrite get_after.
  unfold expect. rewrite token_after. cbn [hd]. rewrite D, Z.eqb_refl, get_after. reflexivity.
Qed.

Lemma size_gives z : 0 <= z <= 32767 -> gives [mkOp oPUSH 0 (z mod 65536)] z.
Proof.
  intros Z s R. destruct (computes_push 0 (fun _ => 0) 0 (z mod 65536) 1 ltac:(apply Z.mod_pos_bound; lia) ltac:(lia) s R) as (s' & E & P); [intros y []|].
  exists s'. split; [exact E|]. split; [exact P|]. lia.
Qed.

Lemma size_partial : forall alloc passed ts v z, gsize ts v -> size_is alloc passed v z -> tk v <> 0x5a -> 0 <= z <= 32767 ->
  exists code,
    (forall c rest, toks c = ts ++ rest -> exists c', size_function alloc c = Done xInteger c' /\ errorless c c' rest code) /\ gives code z.
Proof.
  intros alloc passed ts v z G S N Z. exists [mkOp oPUSH 0 (z mod 65536)]. split; [|apply size_gives; exact Z].
  intros c rest Tk. apply (size_code alloc passed ts v z); try assumption. intros Q. contradiction.
Qed.

(** Larger sizes: no error, and never the size *)
Lemma large_never : forall alloc passed ts v z, gsize ts v -> size_is alloc passed v z -> tk v <> 0x5a -> 32768 <= z ->
  exists code,
    (forall c rest, toks c = ts ++ rest -> exists c', size_function alloc c = Done xInteger c' /\ errorless c c' rest code) /\
    ~ gives code z /\ forall s, room s 1 -> exists s', exec_list code s = Ok s' /\ pushed s s' [z mod 65536].
Proof.
  intros alloc passed ts v z G S N Z. exists [mkOp oPUSH 0 (z mod 65536)]. split; [|split].
  - intros c rest Tk. apply (size_code alloc passed ts v z); try assumption. intros Q. contradiction.
  - intros H. destruct (H (mkSt (fun _ => 0) (mkCfg 4096 200 2000 0 1000) 198 0 0 0 0 0)) as (s' & _ & _ & B); [repeat split; vm_compute; congruence|lia].
  - intros s R. destruct (computes_push 0 (fun _ => 0) 0 (z mod 65536) 1 ltac:(apply Z.mod_pos_bound; lia) ltac:(lia) s R) as (s' & E & P); [intros y []|].
    exists s'. split; [exact E|exact P].
Qed.

(** A parameter passed by reference: 2, whatever is passed *)
Lemma reference_two : forall alloc passed ts v, gsize ts v -> tk v = 0x5a -> 0 <= passed v <= 32767 -> passed v <> 2 ->
  exists code,
    (forall c rest, toks c = ts ++ rest -> exists c', size_function alloc c = Done xInteger c' /\ errorless c c' rest code) /\
    gives code 2 /\ ~ gives code (passed v).
Proof.
  intros alloc passed ts v G K B Ne. exists [mkOp oPUSH 0 (2 mod 65536)]. split; [|split].
  - intros c rest Tk. apply (size_code alloc (fun _ => 2) ts v 2); [exact G| |reflexivity|exact Tk].
    apply (sz_reference alloc (fun _ => 2) v K).
  - apply size_gives. lia.
  - intros H. set (s0 := mkSt (fun _ => 0) (mkCfg 4096 200 2000 0 1000) 198 0 0 0 0 0).
    assert (R : room s0 1) by (repeat split; vm_compute; congruence).
    destruct (H s0 R) as (s1 & E1 & (_ & _ & P1 & _) & _).
    destruct (size_gives 2 ltac:(lia) s0 R) as (s2 & E2 & (_ & _ & P2 & _) & _). rewrite E1 in E2. injection E2 as <-.
    pose proof (P1 0%nat _ eq_refl) as H1. pose proof (P2 0%nat _ eq_refl) as H2. rewrite H1 in H2. injection H2 as H2. rewrite Z.mod_small in H2 by lia. contradiction.
Qed.

(** In a constant: the value is the one that was there before, and code is generated. *)
Lemma constant_unset : forall alloc passed ts v z k, gsize ts v -> size_is alloc passed v z -> tk v <> 0x5a ->
  forall c rest, toks c = ts ++ rest ->
  exists c', size_constant alloc k c = (k, c') /\ errorless c c' rest [mkOp oPUSH 0 (z mod 65536)].
Proof.
  intros alloc passed ts v z k G S N c rest Tk.
  destruct (size_code alloc passed ts v z G S ltac:(intros Q; contradiction) c rest Tk) as (c' & H & E). exists c'. split; [|exact E].
  unfold size_function in H. destruct (_ && _) in H; [|discriminate]. injection H as <-. reflexivity.
Qed.

(** What is accepted *)
Lemma size_accepted : forall alloc passed c t c', size_function alloc c = Done t c' -> errs c' = errs c ->
  t = xInteger /\ exists ts v z, toks c = ts ++ toks c' /\ gsize ts v /\ size_is alloc passed v z.
Proof.
  intros alloc passed c t c' H E. unfold size_function in H.
  destruct (Z.eqb_spec (token c) tSTDFUNC) as [K|K]; cbn [andb] in H; [|discriminate].
  destruct (at_token c ltac:(rewrite K; discriminate)) as (a & r & Tk & Ka & Cu & Tg & Eg).
  rewrite Cu in H. rewrite K in Ka. symmetry in Ka.
  destruct (Z.eqb_spec (tsub a) txSIZEOF) as [X|X]; [|discriminate].
  assert (NE : ne c' = ne c) by (unfold ne; rewrite E; reflexivity).
  injection H as <- H. split; [reflexivity|].
  unfold sizeof_func in H. set (c1 := expect tLPAREN eLPAREN (getToken c)) in H.
  assert (N1 : (ne c <= ne c1)%nat) by (pose proof (ne_expect tLPAREN eLPAREN (getToken c)) as Q; rewrite ne_get in Q; exact Q).
  set (q := (if existsb (Z.eqb (token c1)) sized_kinds then _ else _)) in H.
  assert (A : snd q = error eINVARG c1 \/ snd q = c1 /\ forall v, cur c1 = v -> token c1 = tk v -> token c1 <> 0 /\ exists z, size_is alloc passed v z).
  { subst q. destruct (existsb (Z.eqb (token c1)) sized_kinds) eqn:I1; [|destruct (existsb (Z.eqb (token c1)) pointer_kinds) eqn:I2; [|destruct (Z.eqb_spec (token c1) sTYPE) as [I3|I3]]];
      cbn [snd]; [right|right|right|left; reflexivity]; (split; [reflexivity|]); intros v V T.
    - rewrite kind_in, sized_token in I1. split; [lia|]. rewrite T in I1. eexists. apply sz_variable; apply I1.
    - rewrite kind_in, pointer_token in I2. split; [lia|]. rewrite T in I2. destruct I2 as [I2|I2]; eexists; [apply sz_pointer|apply sz_reference]; exact I2.
    - split; [rewrite I3; discriminate|]. rewrite T in I3. eexists. apply sz_type. exact I3. }
  destruct q as (size & c2). cbn [snd] in A.
  pose proof (ne_data oPUSH size c2) as N2. set (c3 := data_op oPUSH size c2) in *.
  pose proof (ne_expect tRPAREN eRPAREN (getToken c3)) as N3. rewrite ne_get in N3. rewrite H in N3.
  destruct A as [->|(-> & A)].
  { exfalso. unfold ne in *. cbn [errs error] in N2. rewrite app_length in N2. cbn [length] in N2. lia. }
  assert (Q1 : errs c1 = errs (getToken c)) by (apply ne_clean; [apply local_grows_expect|rewrite ne_get; lia]).
  assert (Q3 : errs (expect tRPAREN eRPAREN (getToken c3)) = errs (getToken c3)) by (apply ne_clean; [apply local_grows_expect|rewrite H, ne_get; lia]).
  destruct (expect_clean tLPAREN _ _ ltac:(discriminate) Q1) as (b & B1 & B2). fold c1 in B2.
  destruct (expect_clean tRPAREN _ _ ltac:(discriminate) Q3) as (d & D1 & D2). rewrite H in D2.
  assert (T3 : toks c3 = toks c1) by apply toks_data.
  destruct (A (cur c1) eq_refl eq_refl) as (Nz & _).
  destruct (at_token c1 Nz) as (v & p & V1 & V2 & V3 & V4 & _). destruct (A v V3 V2) as (_ & z & S).
  exists [a; b; v; d], v, z. split; [|split; [apply gs_size; assumption|exact S]].
  assert (T4 : toks (getToken c3) = p) by (rewrite <- V4; unfold getToken; cbn [toks]; rewrite T3; reflexivity).
  rewrite Tk, <- Tg, B2, V1, <- T4, D2. reflexivity.
Qed.
