(** A case for the statements about programs with procedures. *)

From Coq Require Import ZArith Bool List Lia ZifyBool.
From Verif Require Import Words State Opcodes EncodeModel Machine VmSpec HeapModel OptSpec ExprModel ExprSpec ExprOps ExprLoad ExprCases
  StmtModel StmtSpec StmtRun StmtCases ArrModel ArrCases ActModel ActSpec ActCases BlockModel BlockSpec BlockProofs BlockMain BlockCases
  StartModel StartSpec StartProofs StartMain StartCases RecModel RecSpec RecCode RecProgram.
From Verif Require Import StmtSpec.
Import ListNotations.
Open Scope Z_scope.

(** ** A program, with the files INPUT and OUTPUT:
    var s : Integer = 0;
    procedure p(k : Integer); begin if k > 0 then begin s := s + k; p(k - 1) end end;
    begin p(100) end. *)

Definition rc_s := mkVar xInteger 0 4.
Definition rc_vars := [sp_in; sp_out; rc_s].
Definition rc_k := mkVar xInteger 1 (-2).
Definition rc_proc := mkProc 0 80 [mkFormal sINT (Some sINT)] 0 0.
Definition rc_procs (t : tok) : proc := rc_proc.
Definition pt := kt sPROC.
Definition eless := ESimple (SBin (STerm false (TFactor (FVar rc_k))) Minus (TFactor (FInt 1))).
Definition tless := [vt rc_k] ++ [kt tMINUS; nt 1].
Definition rc_add := PAssign rc_s (eplus rc_s rc_k).
Definition rc_body := POne (PIf (erel rc_k Greater 0) (PBlock (PMore rc_add (POne (PCall 0 [eless]))))).
Definition rc_toks := kt tBEGIN :: (kt tIF :: trel rc_k tGT 0 ++ kt tTHEN ::
  (kt tBEGIN :: ((vt rc_s :: kt tASSIGN :: tplus rc_s rc_k) ++ semi :: (pt :: (kt tLPAREN :: tless ++ [kt tRPAREN]))) ++ [kt tEND])) ++ [kt tEND].
Definition rc_decl := mkDecl rc_proc [ByValue xInteger] rc_vars [] 0 [] [] rc_toks rc_body.
Definition rc_decls := [rc_decl].
Definition rc_main := POne (PCall 0 [ESimple (ten 100)]).
Definition rc_text := kt tBEGIN :: (pt :: (kt tLPAREN :: [nt 100] ++ [kt tRPAREN])) ++ [kt tEND].
Definition rc_inits := [IFile (mkSym 0 0 2 0) 0; IFile (mkSym 0 2 2 0) 1; add_var_initializer (mkSym 0 4 2 0) (kind_of xInteger) 0 0].
Definition rc_ini := [(sp_in, 0); (sp_out, 1); (rc_s, 0)].

Lemma gless : gexpr tless eless.
Proof. apply g_simple, g_add; [|reflexivity|apply g_factor, g_int; reflexivity]. apply g_term, g_factor, g_var, spelt; vark. Qed.
Lemma rc_visible : visible 1 (d_vars rc_decl) rc_decl.
Proof. split; [cbn; lia|]. intros x. cbn. split; [intros H; repeat destruct H as [<-|H]; try destruct H; cbn; intuition lia|]. intros (H & L). repeat destruct H as [<-|H]; try destruct H; cbn in L; auto; lia. Qed.
Lemma rc_visible0 : visible 0 rc_vars rc_decl.
Proof. split; [cbn; lia|]. intros x. cbn. split; [intros H; repeat destruct H as [<-|H]; try destruct H; cbn; intuition lia|]. intros (H & L). exact H. Qed.
Ltac addr := cbn; intros x H; repeat destruct H as [<-|H]; try destruct H; (split; [cbn; auto|repeat split; vm_compute; congruence]).
Lemma rc_declared : declared rc_procs rc_decls rc_decl.
Proof.
  constructor.
  - constructor.
    + apply gpb_block; [reflexivity| |reflexivity]. eapply gp_one, gp_if; [reflexivity|apply grel; [vark|reflexivity]|reflexivity|].
      apply gp_block; [reflexivity| |reflexivity]. eapply gp_more; [apply gp_assign; [apply spelt; vark|reflexivity|apply gplus; vark]|reflexivity|].
      eapply gp_one, gp_call with (d := rc_decl); [reflexivity|reflexivity|reflexivity|exact rc_visible|].
      apply gl_args; [reflexivity|apply ActSpec.gs_one|reflexivity]. apply ga_value; [exact gless|reflexivity|].
      intros x [<-|[]]. repeat split; vm_compute; congruence.
    + repeat split; try reflexivity; discriminate.
    + addr.
    + repeat constructor; vm_compute; congruence.
    + vm_compute. congruence.
    + constructor.
    + constructor.
    + intros x [].
    + cbn. lia.
  - cbn. intros x H. repeat destruct H as [<-|H]; try destruct H; cbn; lia.
  - constructor; [intros x []|intros x y []].
  - exact bp_described.
  - cbn. lia.
  - cbn. lia.
  - vm_compute. congruence.
Qed.
Lemma rc_declares : forall q d, nth_error rc_decls q = Some d -> declared rc_procs rc_decls d.
Proof. intros [|[|q]] d H; try discriminate H. injection H as <-. exact rc_declared. Qed.
Lemma rc_block : pblock_text rc_procs rc_decls 0 rc_vars 6 rc_inits rc_ini rc_text rc_main.
Proof.
  constructor.
  - apply gpb_block; [reflexivity| |reflexivity]. eapply gp_one, gp_call with (d := rc_decl); [reflexivity|reflexivity|reflexivity|exact rc_visible0|].
    apply gl_args; [reflexivity|apply ActSpec.gs_one|reflexivity]. apply ga_value; [apply g_simple, gten|reflexivity|]. intros x [].
  - exact I.
  - intros x [].
  - repeat constructor; vm_compute; congruence.
  - vm_compute. congruence.
  - constructor; [apply gives_file; vm_compute; intuition congruence|]. constructor; [apply gives_file; vm_compute; intuition congruence|].
    constructor; [apply (gives_value (mkSym 0 4 2 0) rc_s 0 0); vm_compute; congruence|constructor].
  - cbn [map fst rc_ini]. repeat first [apply NoDup_nil|apply NoDup_cons; [cbn; intuition discriminate|]].
  - addr.
  - lia.
Qed.
Lemma rc_locals : locals 0 6 rc_vars.
Proof.
  constructor.
  - cbn. intros x H. repeat destruct H as [<-|H]; try destruct H; cbn; lia.
  - cbn. intros x y H K N. unfold disjoint. repeat destruct H as [<-|H]; try destruct H; repeat destruct K as [<-|K]; try destruct K; try congruence; cbn; lia.
Qed.

(** p(m) adds 1 + ... + m to s. *)
Fixpoint tri (m : nat) : Z := match m with O => 0 | S k => Z.of_nat m + tri k end.
Lemma tri_pos m : 0 <= tri m.
Proof. induction m; cbn [tri]; lia. Qed.
Lemma rc_means m : Z.of_nat m <= 200 -> forall r, 0 <= r rc_s -> r rc_s + tri m <= 32767 ->
  calling rc_decls (S m) 0%nat r [Z.of_nat m] (set r rc_s (r rc_s + tri m)).
Proof.
  assert (Lim : forall z, -32768 <= z <= 32767 -> limit xInteger z = Some z)
    by (intros z Hz; unfold limit; replace (inr xInteger z) with true by (cbn; lia); reflexivity).
  induction m as [|m IH]; intros Hm r H0 H1; (exists rc_decl; split; [reflexivity|]; split;
    [intros x Hx; unfold set; destruct (var_eqb x rc_s) eqn:E; [|reflexivity]; exfalso; apply Hx; right; right; left; symmetry; apply var_eqb_iff; exact E|]);
    intros rc r1 Ho (Ha & _) (_ & S2).
  - exists r1. split.
    + exists 0. split; [|split; reflexivity]. assert (Ks : r1 rc_k = 0) by (rewrite S2 by (intros []); apply (Ha eq_refl)). cbn. rewrite Ks. reflexivity.
    + intros x Hx. rewrite S2 by (intros []). rewrite (Ho x Hx). unfold set. destruct (var_eqb x rc_s) eqn:E; [|reflexivity]. apply var_eqb_iff in E. subst x. cbn [tri]. lia.
  - pose proof (tri_pos m) as Tp. cbn [tri] in H1. assert (Ks : r1 rc_k = Z.of_nat (S m)) by (rewrite S2 by (intros []); apply (Ha eq_refl)).
    assert (Ss : r1 rc_s = r rc_s) by (rewrite S2 by (intros []); apply Ho; cbn; auto).
    remember (set r1 rc_s (r rc_s + Z.of_nat (S m))) as r2 eqn:E2. exists (set r2 rc_s (r2 rc_s + tri m)).
    assert (R2 : r2 rc_s = r rc_s + Z.of_nat (S m)) by (rewrite E2; reflexivity).
    split.
    + exists (-1). split.
      { unfold erel, evalue. cbn. rewrite Ks. repeat (rewrite Lim by lia; cbn). unfold value_rel. cbn. repeat (rewrite Lim by lia; cbn). replace (0 <? Z.of_nat (S m)) with true by lia. reflexivity. }
      exists Normal, r2. split.
      * exists (r rc_s + Z.of_nat (S m)). split; [|split; [cbn; lia|split; [reflexivity|exact E2]]].
        cbn -[Z.of_nat]. rewrite Ks, Ss. repeat (rewrite Lim by lia; cbn -[Z.of_nat]). reflexivity.
      * split; [reflexivity|]. exists rc_decl, [Z.of_nat m]. split; [reflexivity|]. split.
        -- constructor; [|constructor]. assert (K2 : r2 rc_k = Z.of_nat (S m)) by (rewrite E2; exact Ks).
           split; [|cbn; lia]. cbn -[Z.of_nat]. rewrite K2. repeat (rewrite Lim by lia; cbn -[Z.of_nat]). f_equal. lia.
        -- apply (IH ltac:(lia) r2); rewrite R2; lia.
    + intros x Hx. unfold set at 1. destruct (var_eqb x rc_s) eqn:E.
      * apply var_eqb_iff in E. subst x. rewrite R2. unfold set. cbn [tri]. rewrite (proj2 (var_eqb_iff rc_s rc_s) eq_refl). lia.
      * rewrite E2. unfold set. rewrite E. rewrite S2 by (intros []). apply (Ho x Hx).
Qed.

(** 30009 bytes of stack *)
Definition at_rec := mkAttr 256 5 30009 506 (Some [72; 101; 108; 108; 111]) 3.
Lemma at_rec_ok : startable at_rec.
Proof.
  constructor; cbn [at_rec a_str a_ro a_stk a_hp a_rodata a_entry].
  - lia.
  - vm_compute. congruence.
  - lia.
  - intros l H. injection H as <-. split; [reflexivity|]. repeat constructor; lia.
  - right. vm_compute. intuition congruence.
Qed.
Lemma rc_main_means : forall r r1, started rc_ini r r1 -> exists r', pmeans_seq rc_decls (calling rc_decls 101) rc_main r1 Normal r' /\ r' rc_s = 5050.
Proof.
  intros r r1 (S1 & _). assert (X : r1 rc_s = 0) by (apply S1; cbn; auto). exists (set r1 rc_s (r1 rc_s + tri 100)). split.
  - split; [reflexivity|]. exists rc_decl, [100]. split; [reflexivity|]. split; [constructor; [vm_compute; auto|constructor]|].
    apply (rc_means 100); rewrite ?X; vm_compute; congruence.
  - rewrite X. reflexivity.
Qed.
Lemma rc_before : before_body rc_decl (start_at 1 (rc_toks ++ [semi])) semi [] 81.
Proof. repeat split; vm_compute; congruence. Qed.

Lemma procedures_case : exists n c1 c2 i main s s', proutine rc_procs n 80 81 0 None [] (start_at 1 (rc_toks ++ [semi])) = SDone c1 /\ errs c1 = [] /\
  pprogram rc_procs n 9 6 (Some (out c1)) rc_inits (start_at 0 (rc_text ++ [kt tPERIOD])) = SDone c2 /\ errs c2 = [] /\
  out c2 = out c1 ++ main ++ [mkOp oEND 0 0] /\ i = length (out c1) /\
  initialize at_rec (fun _ => 77) = HV s /\ cruns (out c2) (i, [], s) ((i + length main)%nat, [], s') /\
  nth_error (out c2) (i + length main) = Some (mkOp oEND 0 0) /\ rd s' 138 = Some 5050.
Proof.
  destruct (procedure_compiles rc_procs rc_decls rc_declares 0%nat rc_decl eq_refl _ _ _ _ None rc_before) as (c1 & m1 & N1 & C1 & _ & E1 & _ & O1 & _ & _).
  destruct (pprogram_runs rc_procs rc_decls rc_declares rc_vars 6 rc_inits rc_ini rc_text rc_main rc_block rc_locals
    (start_at 0 (rc_text ++ [kt tPERIOD])) (kt tPERIOD) [] 9 (Some (out c1))
    eq_refl eq_refl eq_refl eq_refl ltac:(vm_compute; congruence) ltac:(vm_compute; congruence) ltac:(lia))
    as (c2 & main & N2 & C2 & E2 & O2 & _ & X).
  cbn [start_at out app] in O2.
  destruct (X (out c2) (length (out c1))) with (D := 49) (n := 101%nat) (a := at_rec) (junk := fun _ : Z => 77) (Q := fun r : env => r rc_s = 5050)
    as (s & s' & r' & I & R & Nt & Qr & Sr & _ & Ho).
  - pose proof (stands_at (out c1) (main ++ [mkOp oEND 0 0]) []) as Sa. rewrite app_nil_r in Sa. rewrite O2. exact Sa.
  - intros [|[|q]] d H; try discriminate H. injection H as <-. exists (out c1), 0%nat. split.
    + exists (start_at 1 (rc_toks ++ [semi])), semi, [], 81, None, c1, N1. split; [exact rc_before|]. split; [exact C1|reflexivity].
    + rewrite O2. apply (stands_at [] (out c1)).
  - intros [|[|q]] d H; try discriminate H. injection H as <-. vm_compute. congruence.
  - lia.
  - exact at_rec_ok.
  - vm_compute. reflexivity.
  - exact rc_main_means.
  - exists (N1 + N2)%nat, c1, c2, (length (out c1)), main, s, s'. split; [apply C1; lia|]. split; [rewrite E1; reflexivity|].
    split; [apply C2; lia|]. split; [rewrite E2; reflexivity|]. split; [exact O2|]. split; [reflexivity|]. split; [exact I|]. split; [exact R|]. split; [exact Nt|].
    specialize (Ho rc_s ltac:(cbn; auto)). unfold contains in Ho. rewrite Qr in Ho. exact Ho.
Qed.

(** Without the labels and line numbers of the code: the statement that the compiler
    comes to an end on every procedure *)
Lemma procedure_compiled procs decls : (forall q d, nth_error decls q = Some d -> declared procs decls d) ->
  forall q d, nth_error decls q = Some d -> forall c b rest label inner, before_body d c b rest label ->
  exists c' code N, (forall n, (N <= n)%nat -> proutine procs n (pLabel (d_proc d)) label (d_dstack d) inner (d_inits d) c = SDone c') /\
    toks c' = rest /\ errs c' = errs c /\ g_level c' = g_level c - 1 /\
    out c' = out c ++ mkOp oLABEL 0 (pLabel (d_proc d)) :: code ++ [mkOp oRET 0 0] /\ code_of procs d (mkOp oLABEL 0 (pLabel (d_proc d)) :: code ++ [mkOp oRET 0 0]).
Proof.
  intros Dc q d Nq c b rest label inner Bf.
  destruct (procedure_compiles procs decls Dc q d Nq c b rest label inner Bf) as (c' & main & N & C & T & E & L & O & _ & _).
  exists c', (nested_code (d_level d) label inner ++ main), N. rewrite <- app_assoc. split; [exact C|]. split; [exact T|]. split; [exact E|].
  split; [exact L|]. split; [exact O|]. exists c, b, rest, label, inner, c', N. auto.
Qed.
