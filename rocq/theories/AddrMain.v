(** ADDR. *)

From Coq Require Import ZArith Bool List Lia ZifyBool.
From Verif Require Import Words State Opcodes EncodeModel Machine VmSpec ExprModel ExprSpec ExprRun ExprLoad ExprProofs ExprParse
  StmtModel StmtAccept ActProofs ActAccept ArrModel ArrCases AddrModel AddrSpec.
Import ListNotations.
Open Scope Z_scope.

Lemma name_token k : In k name_kinds <-> 0x45 <= k <= 0x58 /\ k <> 0x51 /\ k <> 0x54 \/ k = 0x5a.
Proof. cbn. lia. Qed.
Lemma routine_token k : In k routine_kinds <-> 0x41 <= k <= 0x43.
Proof. cbn. lia. Qed.
Lemma kind_in k l : existsb (Z.eqb k) l = true <-> In k l.
Proof.
  rewrite existsb_exists. split; [intros (x & I & E); apply Z.eqb_eq in E; subst; exact I|intros I; exists k; split; [exact I|apply Z.eqb_refl]].
Qed.

(** What is compiled, and what the code does *)
Lemma addr_code : forall lev ts v x, gaddr ts v -> own_variable v \/ reference v -> names v x -> addressable lev x ->
  exists code,
    (forall c rest, toks c = ts ++ rest -> g_level c = lev ->
       exists c', addr_function c = Some (true, c') /\ errorless c c' rest code) /\
    forall s p, room s 1 -> var_address lev s x p -> exists s', exec_list code s = Ok s' /\ pushed s s' [p].
Proof.
  intros lev ts v x G K (N1 & N2) Ad. destruct G as [a b v d A1 A2 B D]. exists [refer lev oLAS x]. split.
  - intros c rest Tk L. exists (after c rest [refer lev oLAS x]). split; [|apply after_errorless].
    cbn [app] in Tk. assert (Cu : cur c = a) by (unfold cur; rewrite Tk; reflexivity).
    unfold addr_function, token. rewrite Cu, A1, A2, !Z.eqb_refl. cbn [andb]. f_equal.
    assert (E1 : expect tLPAREN eLPAREN (getToken c) = after c (v :: d :: rest) []).
    { rewrite (get_at c a _ Tk). unfold expect. rewrite token_after. cbn [hd]. rewrite B, Z.eqb_refl. reflexivity. }
    unfold addr_func. rewrite E1, token_after. cbn [hd].
    assert (I1 : existsb (Z.eqb (tk v)) routine_kinds = false).
    { apply not_true_is_false. rewrite kind_in, routine_token. unfold own_variable, reference in K. lia. }
    assert (I2 : existsb (Z.eqb (tk v)) name_kinds = true).
    { rewrite kind_in, name_token. unfold own_variable, reference in K. tauto. }
    rewrite I1, I2. change (cur (after c (v :: d :: rest) [])) with v.
    rewrite (las_ref_eq lev (tsym v) x _ N1 N2); [|exact L|exact Ad]. rewrite append_after, get_after.
    unfold expect. rewrite token_after. cbn [hd]. rewrite D, Z.eqb_refl, get_after. reflexivity.
  - intros s p R V. apply run_las; assumption.
Qed.

Lemma addr_partial : forall lev ts v x, gaddr ts v -> own_variable v -> names v x -> addressable lev x ->
  exists code,
    (forall c rest, toks c = ts ++ rest -> g_level c = lev ->
       exists c', addr_function c = Some (true, c') /\ errorless c c' rest code) /\
    gives_address lev code v x.
Proof.
  intros lev ts v x G K N Ad. destruct (addr_code lev ts v x G (or_introl K) N Ad) as (code & C & R). exists code. split; [exact C|].
  intros s p Rm V. split; [intros _; apply R; assumption|]. intros F. exfalso. unfold own_variable, reference in *. lia.
Qed.

(** What is accepted *)
Lemma local_grows_expect k e c : grows c (expect k e c).
Proof. unfold expect. destruct (token c =? k); [exists []; rewrite app_nil_r; reflexivity|exists [e]; reflexivity]. Qed.

Lemma addr_accepted : forall c p c', addr_function c = Some (p, c') -> errs c' = errs c ->
  p = true /\ exists ts v, toks c = ts ++ toks c' /\ gaddr ts v /\ (own_variable v \/ reference v).
Proof.
  intros c p c' H E. unfold addr_function in H.
  destruct (Z.eqb_spec (token c) tSTDFUNC) as [K|K]; cbn [andb] in H; [|discriminate].
  destruct (at_token c ltac:(rewrite K; discriminate)) as (a & r & Tk & Ka & Cu & Tg & Eg).
  rewrite Cu in H. rewrite K in Ka. symmetry in Ka.
  destruct (Z.eqb_spec (tsub a) txADDR) as [X|X]; [|discriminate].
  assert (NE : ne c' = ne c) by (unfold ne; rewrite E; reflexivity).
  unfold addr_func in H. set (c1 := expect tLPAREN eLPAREN (getToken c)) in H.
  assert (N1 : (ne c <= ne c1)%nat) by (pose proof (ne_expect tLPAREN eLPAREN (getToken c)) as Q; rewrite ne_get in Q; exact Q).
  destruct (existsb (Z.eqb (token c1)) routine_kinds) eqn:I1.
  { exfalso. injection H as _ <-. pose proof (ne_expect tRPAREN eRPAREN (getToken (error eNOTYET c1))) as Q. rewrite ne_get in Q.
    unfold ne in *. cbn [errs error] in Q. rewrite app_length in Q. cbn [length] in Q. lia. }
  destruct (existsb (Z.eqb (token c1)) name_kinds) eqn:I2.
  2:{ exfalso. injection H as _ <-. pose proof (ne_expect tRPAREN eRPAREN (getToken (error eINVARG c1))) as Q. rewrite ne_get in Q.
    unfold ne in *. cbn [errs error] in Q. rewrite app_length in Q. cbn [length] in Q. lia. }
  injection H as <- <-. split; [reflexivity|].
  set (c2 := stack_ref oLAS (tsym (cur c1)) c1) in *.
  pose proof (ne_ref oLAS (tsym (cur c1)) c1) as N2. fold c2 in N2.
  pose proof (ne_expect tRPAREN eRPAREN (getToken c2)) as N3. rewrite ne_get in N3.
  assert (Q1 : errs c1 = errs (getToken c)) by (apply ne_clean; [apply local_grows_expect|rewrite ne_get; lia]).
  assert (Q3 : errs (expect tRPAREN eRPAREN (getToken c2)) = errs (getToken c2)) by (apply ne_clean; [apply local_grows_expect|rewrite ne_get; lia]).
  destruct (expect_clean tLPAREN _ _ ltac:(discriminate) Q1) as (b & B1 & B2). fold c1 in B2.
  destruct (expect_clean tRPAREN _ _ ltac:(discriminate) Q3) as (d & D1 & D2).
  assert (T2 : toks c2 = toks c1) by apply toks_ref.
  rewrite kind_in, name_token in I2.
  destruct (at_token c1 ltac:(lia)) as (v & q & V1 & V2 & V3 & V4 & _).
  exists [a; b; v; d], v. split; [|split; [apply ga_addr; assumption|rewrite V2 in I2; unfold own_variable, reference; tauto]].
  assert (T3 : toks (getToken c2) = q) by (rewrite <- V4; unfold getToken; cbn; rewrite T2; reflexivity).
  rewrite Tk, <- Tg, B2, V1, <- T3, D2. reflexivity.
Qed.

(** A parameter passed by reference: never the address of the variable *)
Lemma reference_never : forall lev ts v x, gaddr ts v -> reference v -> names v x -> addressable lev x ->
  exists code,
    (forall c rest, toks c = ts ++ rest -> g_level c = lev ->
       exists c', addr_function c = Some (true, c') /\ errorless c c' rest code) /\
    forall s p a, room s 1 -> var_address lev s x p -> contains s xWord p a -> a <> p ->
      forall s', exec_list code s = Ok s' -> ~ pushed s s' [a].
Proof.
  intros lev ts v x G K N Ad. destruct (addr_code lev ts v x G (or_intror K) N Ad) as (code & C & R). exists code. split; [exact C|].
  intros s p a Rm V _ Ne s' E (_ & _ & P & _). destruct (R s p Rm V) as (s1 & E1 & _ & _ & P1 & _). rewrite E in E1. injection E1 as <-.
  pose proof (P 0%nat a eq_refl) as H1. pose proof (P1 0%nat p eq_refl) as H2. congruence.
Qed.
