(** Array elements: the code of the indices, loads and stores. *)

From Coq Require Import ZArith Bool List Lia ZifyBool.
From Verif Require Import Words WordLemmas State StateLemmas Opcodes EncodeModel SetModel LongModel Machine VmSpec
  LongSpec VmProofs MemProofs MultiProofs LongProofs ExprModel ExprSpec ExprRun ExprOps ExprLoad ExprProofs ExprMain ExprAccept ExprTotal
  StmtModel StmtSpec StmtPlain StmtRun StmtStore ArrModel ArrSpec.
From Verif Require DeclModel DeclSpec.
Import ListNotations.
Open Scope Z_scope.
Local Transparent rewrites.

(** ** Distances *)

Lemma product_bound : forall is u, 0 < u -> Forall (fun i => fst i <= snd i) is ->
  u <= fold_left (fun z i => z * count i) is u.
Proof.
  induction is as [|i is IH]; intros u U F; cbn [fold_left]; [lia|]. inversion F; subst.
  assert (1 <= count i) by (unfold count; lia). specialize (IH (u * count i) ltac:(nia) ltac:(assumption)). nia.
Qed.

Lemma distance_inside : forall is u vs, 0 < u -> Forall2 bounded is vs ->
  0 <= distance u is vs /\ distance u is vs + u <= fold_left (fun z i => z * count i) is u.
Proof.
  induction is as [|i is IH]; intros u vs U F; inversion F; subst; cbn [distance fold_left]; [lia|].
  unfold bounded in *. assert (C : 1 <= count i) by (unfold count; lia).
  destruct (IH (u * count i) l' ltac:(nia) ltac:(assumption)) as (A & B).
  assert (0 <= (y - fst i) * u <= u * count i - u) by (unfold count; nia). lia.
Qed.

Lemma distance_apart : forall is u vs ws, 0 < u -> Forall2 bounded is vs -> Forall2 bounded is ws -> vs <> ws ->
  u <= Z.abs (distance u is vs - distance u is ws).
Proof.
  induction is as [|i is IH]; intros u vs ws U F G N; inversion F; subst; inversion G; subst; [congruence|].
  cbn [distance]. unfold bounded in *.
  assert (C : 1 <= count i) by (unfold count; lia).
  destruct (list_eq_dec Z.eq_dec l' l'0) as [->|NE].
  - assert (y <> y0) by congruence. assert (1 <= Z.abs (y - y0)) by lia.
    replace ((y - fst i) * u + distance (u * count i) is l'0 - ((y0 - fst i) * u + distance (u * count i) is l'0))
      with ((y - y0) * u) by lia. rewrite Z.abs_mul. nia.
  - specialize (IH (u * count i) l' l'0 ltac:(nia) ltac:(assumption) ltac:(assumption) NE).
    assert (A : Z.abs ((y - y0) * u) <= u * count i - u).
    { rewrite Z.abs_mul. unfold count. nia. }
    lia.
Qed.

(** ** The code of an index *)

(** What follows the expression: subtract the lower bound, multiply, add *)
Definition scaled (lo u : Z) (k : Z) : list opType :=
  (if lo =? 0 then [] else [lpush (lo mod 65536); mkOp oSUB 0 0]) ++
  (if u =? 1 then [] else [lpush u; mkOp oMUL 0 0]) ++
  (if 1 <? k then [mkOp oADD 0 0] else []).

Lemma scale_eq t k c r ps : -32768 <= DeclModel.tMin t <= 65535 -> 0 <= DeclModel.tSize t < 65536 ->
  scale t k (after c r ps) = after c r (ps ++ scaled (DeclModel.tMin t) (DeclModel.tSize t) k).
Proof.
  intros Lo U. unfold scale, scaled.
  assert (E0 : (u16 (DeclModel.tMin t) =? 0) = (DeclModel.tMin t =? 0)) by (unfold u16; lia).
  rewrite E0. rewrite (u16_small (DeclModel.tSize t)) by lia.
  assert (Hs : forall code c, In code [oSUB; oMUL; oADD] -> simple_op code c = append (mkOp code 0 0) c).
  { intros code c0 I. cbn [In] in I. destruct I as [<-|[<-|[<-|[]]]]; reflexivity. }
  rewrite !emit_push by (unfold u16; lia).
  rewrite !Hs by (cbn; tauto).
  replace (u16 (DeclModel.tMin t) mod 65536) with (DeclModel.tMin t mod 65536) by (unfold u16; lia).
  rewrite (Z.mod_small (DeclModel.tSize t)) by lia.
  destruct (DeclModel.tMin t =? 0), (DeclModel.tSize t =? 1), (1 <? k);
    rewrite ?emit_push by lia; rewrite ?Hs by (cbn; tauto); rewrite ?append_after; rewrite <- ?app_assoc, ?app_nil_r; cbn [app];
    rewrite ?(Z.mod_small (DeclModel.tSize t)) by lia; reflexivity.
Qed.

Section Indices.
  Variable lev : Z.

  (** Running [scaled] behind the code of an index *)
  Lemma run_scaled1 env ps k xs v lo u : computes lev ps k xs env [v mod 65536] -> 2 <= k -> 0 <= u < 65536 ->
    computes lev (ps ++ scaled lo u 1) k xs env [((v - lo) * u) mod 65536].
  Proof.
    intros C K U. unfold scaled. cbn [Z.ltb Z.compare Pos.compare Pos.compare_cont]. rewrite app_nil_r.
    assert (C1 : computes lev (ps ++ (if lo =? 0 then [] else [lpush (lo mod 65536); mkOp oSUB 0 0])) k xs env [(v - lo) mod 65536]).
    { destruct (lo =? 0) eqn:E.
      - rewrite app_nil_r. replace (v - lo) with v by lia. exact C.
      - change [lpush (lo mod 65536); mkOp oSUB 0 0] with ([lpush (lo mod 65536)] ++ [mkOp oSUB 0 0]). rewrite app_assoc.
        apply (computes_op_all lev env _ _ k 0 k xs ([v mod 65536] ++ [lo mod 65536])); [|apply rw_sub|lia|cbn; lia].
        rewrite <- (app_nil_r xs). apply (computes_seq lev env ps _ k 1 k xs [] [v mod 65536] [lo mod 65536]); [exact C| |lia|cbn; lia].
        apply computes_push; lia. }
    rewrite app_assoc. destruct (u =? 1) eqn:E1.
    - rewrite app_nil_r. replace ((v - lo) * u) with (v - lo) by nia. exact C1.
    - change [lpush u; mkOp oMUL 0 0] with ([lpush u] ++ [mkOp oMUL 0 0]). rewrite app_assoc.
      rewrite <- (Z.mod_small u 65536) at 1 by lia.
      apply (computes_op_all lev env _ _ k 0 k xs ([(v - lo) mod 65536] ++ [u mod 65536])); [|apply rw_mul|lia|cbn; lia].
      rewrite <- (app_nil_r xs). apply (computes_seq lev env _ _ k 1 k xs [] [(v - lo) mod 65536] [u mod 65536]); [exact C1| |lia|cbn; lia].
      apply computes_push; lia.
  Qed.

  (** The same with a distance below the index on the stack *)
  Lemma run_scaled env qs kq xs acc ps k ys v lo u :
    computes lev qs kq xs env [acc mod 65536] -> computes lev ps k ys env [v mod 65536] -> 2 <= k -> 0 <= u < 65536 ->
    forall m j, 1 < m -> kq <= j -> k + 1 <= j ->
    computes lev (qs ++ ps ++ scaled lo u m) j (xs ++ ys) env [(acc + (v - lo) * u) mod 65536].
  Proof.
    intros Q C K U m j M J1 J2. pose proof (run_scaled1 env ps k ys v lo u C K U) as C1.
    unfold scaled in *. cbn [Z.ltb Z.compare Pos.compare Pos.compare_cont] in C1. rewrite app_nil_r in C1.
    replace (1 <? m) with true by lia. rewrite !app_assoc in *.
    apply (computes_op_all lev env _ _ j 0 j (xs ++ ys) ([acc mod 65536] ++ [((v - lo) * u) mod 65536])); [|apply rw_add|lia|cbn; lia].
    rewrite <- !app_assoc in *.
    apply (computes_seq lev env qs _ kq k j xs ys [acc mod 65536] [((v - lo) * u) mod 65536]); [exact Q| |exact J1|cbn; lia].
    exact C1.
  Qed.

  Lemma expr_after ts e ctx T : gexpr ts e -> etype_of ctx e = Some T -> (forall x, In x (evars e) -> addressable lev x) ->
    exists ps,
    (forall c rest n, toks c = ts ++ rest -> ended rest -> g_level c = lev -> (4 * length (toks c) + 4 <= n)%nat ->
       expression n ctx c = Done T (after c rest ps)) /\
    forall env z, evalue env ctx e = Some z ->
      inr T z = true /\ computes lev ps (2 * Z.of_nat (length ts)) (evars e) env (words T z).
  Proof.
    intros G Y R. destruct (grammar_sound lev) as (_ & _ & _ & H).
    destruct (H ts e G ctx T Y R) as (ps & N & P & C). exists ps. split; [|exact C].
    intros c rest n Tk En L F.
    rewrite <- (P c rest (max N n) Tk En L ltac:(lia)). symmetry. apply expression_fuel; [lia|].
    apply expression_ends. exact F.
  Qed.

  Lemma ended_tok b r x : tk b = x -> In x [0x5d; 0x2c] -> ended (b :: r).
  Proof.
    intros <- I C. unfold continues in C. cbn [hd] in C. cbn [In] in I, C.
    destruct I as [I|[I|[]]]; rewrite <- I in C; repeat (destruct C as [C|C]; [discriminate C|]); exact C.
  Qed.

  Lemma type_of_at l p t : DeclSpec.type_at l 0 (length l) p t -> type_of l p = Some t.
  Proof. intros (_ & s & N & K & P). unfold type_of. rewrite N, P, K. reflexivity. Qed.

  (** One turn of the loop *)
  Lemma loop_step n l dims q k c a0 ts rest t ps p :
    toks c = a0 :: ts ++ rest -> g_level c = lev -> q = Some p -> type_of l p = Some t ->
    DeclModel.tType t = 0x55 -> DeclModel.tSub t = 0x47 -> -32768 <= DeclModel.tMin t <= 65535 -> 0 <= DeclModel.tSize t < 65536 ->
    k <= dims ->
    (forall c n, toks c = ts ++ rest -> g_level c = lev -> (4 * length (toks c) + 4 <= n)%nat ->
       expression n xInteger c = Done xInteger (after c rest ps)) ->
    (4 * length (toks c) + 5 <= n)%nat ->
    exists n', n = S n' /\
    index_loop n l dims q k c =
      let c := after c rest (ps ++ scaled (DeclModel.tMin t) (DeclModel.tSize t) k) in
      if tk (hd eoftok rest) =? tCOMMA then index_loop n' l dims (DeclModel.tIdx t) (u16 (k + 1)) c
      else ADone (expect tRBRACK eRBRACKET c).
  Proof.
    intros Tk Lv -> Tp T1 T2 M1 M2 Kd Ex Hn. destruct n as [|n']; [lia|]. exists n'. split; [reflexivity|].
    cbn [index_loop]. replace (dims <? k) with false by lia. rewrite Tp.
    replace (index_type t) with (Some xInteger) by (unfold index_type; rewrite T1, T2; reflexivity). cbv iota beta.
    rewrite (get_at c a0 (ts ++ rest) Tk).
    rewrite (Ex (after c (ts ++ rest) []) n'); [|reflexivity|exact Lv|].
    2: { rewrite after_toks. rewrite Tk in Hn. cbn [length] in Hn. lia. }
    rewrite after_after. cbn [app]. rewrite scale_eq by assumption. cbv zeta.
    rewrite token_after. reflexivity.
  Qed.

  (** The loop from the second index on adds to the distance. *)
  Lemma loop_more l dims : forall ts es, gindices ts es -> forall is q u k,
    length es = length is -> DeclSpec.indexes l 0 (length l) q u is ->
    Forall (fun i => fst i <= snd i /\ -32768 <= fst i /\ snd i <= 65535) is ->
    0 < u -> fold_left (fun z i => z * count i) is u < 65536 ->
    Forall (index_ok lev) es -> 1 < k -> dims = k + Z.of_nat (length is) - 1 -> dims <= 255 ->
    exists ps,
    (forall c rest n a0, toks c = a0 :: ts ++ rest -> g_level c = lev -> (4 * length (toks c) + 5 <= n)%nat ->
       index_loop n l dims q k c = ADone (after c rest ps)) /\
    forall env vs qs kq xs acc j, ivalues env es vs -> computes lev qs kq xs env [acc mod 65536] -> kq <= j ->
      2 * Z.of_nat (length ts) + 1 <= j ->
      computes lev (qs ++ ps) j (xs ++ ivars es) env [(acc + distance u is vs) mod 65536].
  Proof.
    induction 1 as [ts e b G B|ts e b us es G B Gs IH]; intros is q u k Le Ix Fi U W Ok K D D2.
    - destruct is as [|i [|? ?]]; try discriminate Le. clear Le. inversion Ok as [|? ? (Ty & Rc) _]; subst.
      destruct Ix as (p & t & -> & TA & T1 & T2 & T3 & T4 & T5 & _). inversion Fi as [|? ? (F1 & F2 & F3) _]; subst.
      cbn [fold_left] in W. assert (C : 1 <= count i) by (unfold count; lia).
      destruct (expr_after ts e xInteger xInteger G Ty Rc) as (ps & Ex & Ev).
      exists (ps ++ scaled (DeclModel.tMin t) (DeclModel.tSize t) k). split.
      + intros c rest n a0 Tk Lv Hn. rewrite <- app_assoc in Tk. cbn [app] in Tk.
        destruct (loop_step n l (k + Z.of_nat (length [i]) - 1) (Some p) k c a0 ts (b :: rest) t ps p Tk Lv) as (n' & _ & ->); auto.
        * apply type_of_at, TA.
        * lia.
        * nia.
        * cbn [length]. lia.
        * intros c0 n0 Tk0 L0 H0. apply Ex; auto. apply (ended_tok b rest 0x5d B). cbn; tauto.
        * cbn [hd]. rewrite B. change (0x5d =? tCOMMA) with false. cbv iota zeta.
          unfold expect. rewrite token_after. cbn [hd]. rewrite B. change (0x5d =? tRBRACK) with true. cbv iota. rewrite get_after. reflexivity.
      + intros env vs qs kq xs acc j V Q J1 J2. inversion V as [|? v ? ? V1 V2]; subst. inversion V2; subst.
        destruct (Ev env v V1) as (_ & Cv). change (words xInteger v) with [v mod 65536] in Cv.
        cbn [ivars flat_map distance]. rewrite app_nil_r, Z.add_0_r.
        rewrite app_length in J2. cbn [length] in J2.
        pose proof (proj2 (proj2 (proj2 grammar_nonempty)) ts e G) as Ne.
        rewrite T3. apply (run_scaled env qs kq xs acc ps _ _ v (fst i) _ Q Cv); lia || nia.
    - destruct is as [|i is]; [discriminate Le|]. injection Le as Le. inversion Ok as [|? ? (Ty & Rc) Ok']; subst.
      destruct Ix as (p & t & -> & TA & T1 & T2 & T3 & T4 & T5 & Ix). inversion Fi as [|? ? (F1 & F2 & F3) Fi']; subst.
      cbn [fold_left] in W. assert (C : 1 <= count i) by (unfold count; lia).
      assert (W1 : DeclModel.tSize t * count i < 65536).
      { pose proof (product_bound is (DeclModel.tSize t * count i) ltac:(nia)) as X.
        assert (Y : Forall (fun i => fst i <= snd i) is) by (eapply Forall_impl; [|exact Fi']; intros ? (? & _); assumption).
        specialize (X Y). lia. }
      destruct (expr_after ts e xInteger xInteger G Ty Rc) as (ps & Ex & Ev).
      destruct (IH is (DeclModel.tIdx t) (DeclModel.tSize t * count i) (k + 1) Le Ix Fi' ltac:(nia) W Ok' ltac:(lia)) as (ps' & Lp & Cp).
      { cbn [length]. lia. } { cbn [length] in *. lia. }
      exists ((ps ++ scaled (DeclModel.tMin t) (DeclModel.tSize t) k) ++ ps'). split.
      + intros c rest n a0 Tk Lv Hn. rewrite <- app_assoc in Tk. cbn [app] in Tk.
        destruct (loop_step n l (k + Z.of_nat (length (i :: is)) - 1) (Some p) k c a0 ts (b :: us ++ rest) t ps p Tk Lv) as (n' & -> & ->); auto.
        * apply type_of_at, TA.
        * lia.
        * nia.
        * cbn [length]. lia.
        * intros c0 n0 Tk0 L0 H0. apply Ex; auto. apply (ended_tok b (us ++ rest) 0x2c B). cbn; tauto.
        * cbn [hd]. rewrite B. change (0x2c =? tCOMMA) with true. cbv iota zeta.
          rewrite u16_small by (cbn [length] in D2; lia).
          rewrite (Lp _ rest n' b); [rewrite after_after; reflexivity|reflexivity|exact Lv|].
          rewrite after_toks. rewrite Tk in Hn. pose proof (proj2 (proj2 (proj2 grammar_nonempty)) ts e G) as Ne.
          cbn [length] in *. rewrite app_length in Hn. cbn [length] in Hn. lia.
      + intros env vs qs kq xs acc j V Q J1 J2. inversion V as [|? v ? vs' V1 V2]; subst.
        destruct (Ev env v V1) as (_ & Cv). change (words xInteger v) with [v mod 65536] in Cv.
        cbn [ivars flat_map distance]. fold (ivars es). rewrite app_length in J2. cbn [length] in J2.
        pose proof (proj2 (proj2 (proj2 grammar_nonempty)) ts e G) as Ne.
        rewrite app_assoc. rewrite (app_assoc xs).
        replace (acc + ((v - fst i) * DeclModel.tSize t + distance (DeclModel.tSize t * count i) is vs'))
          with ((acc + (v - fst i) * DeclModel.tSize t) + distance (DeclModel.tSize t * count i) is vs') by lia.
        apply (Cp env vs' _ j _ _ j V2); [|lia|lia].
        rewrite T3. apply (run_scaled env qs kq xs acc ps _ _ v (fst i) _ Q Cv); lia || nia.
  Qed.

  Lemma index_code l a p s t : forall ts es, gindices ts es -> proper a -> length es = length (abounds a) ->
    nth_error l p = Some s -> DeclModel.tDim t = Z.of_nat (length (abounds a)) ->
    DeclSpec.indexes l 0 (length l) (DeclModel.tIdx t) (size_of (aty a)) (abounds a) ->
    Forall (index_ok lev) es ->
    exists ps,
    (forall c rest n a0, toks c = a0 :: ts ++ rest -> tk a0 = tLBRACK -> g_level c = lev -> (4 * length (toks c) + 5 <= n)%nat ->
       array_index n l t c = ADone (after c rest ps)) /\
    forall env vs, ivalues env es vs ->
      computes lev ps (2 * Z.of_nat (length ts) + 1) (ivars es) env [distance (size_of (aty a)) (abounds a) vs mod 65536].
  Proof.
    intros ts es Gi (Ne & L255 & Fi & W & Cl) Le N Dm Ix Ok.
    assert (Sz : 1 <= size_of (aty a) <= 4) by (apply var_size; exact Cl).
    unfold asize in W. revert Ne L255 Fi W Le Dm Ix. generalize (size_of (aty a)) as u, (abounds a) as is, Sz. clear Sz Cl N.
    intros u is Sz Ne L255 Fi W Le Dm Ix.
    assert (AI : forall n c a0 r, toks c = a0 :: r -> tk a0 = tLBRACK ->
      array_index n l t c = index_loop n l (DeclModel.tDim t) (DeclModel.tIdx t) 1 c).
    { intros n c a0 r Tk H. unfold array_index, token, cur. rewrite Tk. cbn [hd]. rewrite H. reflexivity. }
    destruct Gi as [ts e b G B|ts e b us es G B Gs].
    - destruct is as [|i [|? ?]]; try discriminate Le. clear Le. inversion Ok as [|? ? (Ty & Rc) _]; subst.
      destruct Ix as (q & ti & Eq & TA & T1 & T2 & T3 & T4 & T5 & _). inversion Fi as [|? ? (F1 & F2 & F3) _]; subst.
      cbn [fold_left] in W. assert (C : 1 <= count i) by (unfold count; lia).
      destruct (expr_after ts e xInteger xInteger G Ty Rc) as (ps & Ex & Ev).
      exists (ps ++ scaled (DeclModel.tMin ti) (DeclModel.tSize ti) 1). split.
      + intros c rest n a0 Tk Ha Lv Hn. rewrite (AI n c a0 _ Tk Ha). rewrite <- app_assoc in Tk. cbn [app] in Tk.
        destruct (loop_step n l (DeclModel.tDim t) (DeclModel.tIdx t) 1 c a0 ts (b :: rest) ti ps q Tk Lv Eq) as (n' & _ & ->); auto.
        * apply type_of_at, TA.
        * lia.
        * nia.
        * rewrite Dm. cbn [length]. lia.
        * intros c0 n0 Tk0 L0 H0. apply Ex; auto. apply (ended_tok b rest 0x5d B). cbn; tauto.
        * cbn [hd]. rewrite B. change (0x5d =? tCOMMA) with false. cbv iota zeta.
          unfold expect. rewrite token_after. cbn [hd]. rewrite B. change (0x5d =? tRBRACK) with true. cbv iota. rewrite get_after. reflexivity.
      + intros env vs V. inversion V as [|? v ? ? V1 V2]; subst. inversion V2; subst.
        destruct (Ev env v V1) as (_ & Cv). change (words xInteger v) with [v mod 65536] in Cv.
        cbn [ivars flat_map distance]. rewrite app_nil_r, Z.add_0_r. rewrite app_length. cbn [length].
        pose proof (proj2 (proj2 (proj2 grammar_nonempty)) ts e G) as Nz.
        apply (computes_weaken lev env _ (2 * Z.of_nat (length ts)) _ (evars e) (evars e)); [|lia|apply incl_refl].
        rewrite T3. apply run_scaled1; [exact Cv|lia|nia].
    - destruct is as [|i is]; [discriminate Le|]. injection Le as Le. inversion Ok as [|? ? (Ty & Rc) Ok']; subst.
      destruct Ix as (q & ti & Eq & TA & T1 & T2 & T3 & T4 & T5 & Ix). inversion Fi as [|? ? (F1 & F2 & F3) Fi']; subst.
      cbn [fold_left] in W. assert (C : 1 <= count i) by (unfold count; lia).
      assert (W1 : DeclModel.tSize ti * count i < 65536).
      { pose proof (product_bound is (DeclModel.tSize ti * count i) ltac:(nia)) as X.
        assert (Y : Forall (fun i => fst i <= snd i) is) by (eapply Forall_impl; [|exact Fi']; intros ? (? & _); assumption).
        specialize (X Y). lia. }
      destruct (expr_after ts e xInteger xInteger G Ty Rc) as (ps & Ex & Ev).
      destruct (loop_more l (DeclModel.tDim t) us es Gs is (DeclModel.tIdx ti) (DeclModel.tSize ti * count i) 2 Le Ix Fi' ltac:(nia) W Ok' ltac:(lia)) as (ps' & Lp & Cp).
      { rewrite Dm. cbn [length]. lia. } { rewrite Dm. lia. }
      exists ((ps ++ scaled (DeclModel.tMin ti) (DeclModel.tSize ti) 1) ++ ps'). split.
      + intros c rest n a0 Tk Ha Lv Hn. rewrite (AI n c a0 _ Tk Ha). rewrite <- app_assoc in Tk. cbn [app] in Tk.
        destruct (loop_step n l (DeclModel.tDim t) (DeclModel.tIdx t) 1 c a0 ts (b :: us ++ rest) ti ps q Tk Lv Eq) as (n' & -> & ->); auto.
        * apply type_of_at, TA.
        * lia.
        * nia.
        * rewrite Dm. cbn [length]. lia.
        * intros c0 n0 Tk0 L0 H0. apply Ex; auto. apply (ended_tok b (us ++ rest) 0x2c B). cbn; tauto.
        * cbn [hd]. rewrite B. change (0x2c =? tCOMMA) with true. cbv iota zeta.
          change (u16 (1 + 1)) with 2.
          rewrite (Lp _ rest n' b); [rewrite after_after; reflexivity|reflexivity|exact Lv|].
          rewrite after_toks. rewrite Tk in Hn. pose proof (proj2 (proj2 (proj2 grammar_nonempty)) ts e G) as Nz.
          cbn [length] in *. rewrite app_length in Hn. cbn [length] in Hn. lia.
      + intros env vs V. inversion V as [|? v ? vs' V1 V2]; subst.
        destruct (Ev env v V1) as (_ & Cv). change (words xInteger v) with [v mod 65536] in Cv.
        cbn [ivars flat_map distance]. fold (ivars es). rewrite app_length. cbn [length].
        pose proof (proj2 (proj2 (proj2 grammar_nonempty)) ts e G) as Nz.
        apply (Cp env vs' _ (2 * Z.of_nat (length ts)) _ _ _ V2); [|lia|lia].
        rewrite T3. apply run_scaled1; [exact Cv|lia|nia].
  Qed.
End Indices.
