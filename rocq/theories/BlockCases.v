(** The statements about procedures, cases for them, and what contradicts. *)

From Coq Require Import ZArith Bool List Lia ZifyBool.
From Verif Require Import Words State Opcodes EncodeModel Machine VmSpec OptSpec ExprModel ExprSpec ExprOps ExprLoad ExprCases
  StmtModel StmtSpec StmtRun StmtCases ArrModel ArrProofs ArrCases ActModel ActSpec ActProofs ActRun ActCases BlockModel BlockSpec BlockProofs BlockMain.
From Verif Require Import StmtSpec.
Import ListNotations.
Open Scope Z_scope.

Lemma function_called' : forall lev p ps ts l t,
  Forall2 described (pFormals p) ps -> glist lev ps ts l -> 0 <= pLevel p < 255 -> 0 <= pLabel p < 65536 ->
  class_of t <> None -> pType p = kind_of t -> pSize p = size_of t -> slots (ByValue t :: ps) <= 32768 -> exists call,
  (forall c name rest n, toks c = name :: ts ++ rest -> (ts = [] -> tk (hd eoftok rest) <> tLPAREN) -> g_level c = lev ->
     (4 * length (toks c) + 4 <= n)%nat ->
     exists c', function_designator n p c = Done t c' /\ errorless c c' rest call) /\
  compiled_body lev p ps l (Some t) (2 * Z.of_nat (length ts) + 9) call.
Proof.
  intros lev p ps ts l t D G Lv Lb Cl Pt Sz Sl. apply function_called; auto. rewrite Pt. apply map_kind, Cl.
Qed.

(** ** A case: inside of a procedure with the variable x,
    procedure p(a : Integer); var n : Integer = 3;
    begin while n < 6 do begin x := x + a; n := n + 1 end end;
    called as p(x + 2) with x = 31 *)

Definition bp_proc := mkProc 1 80 [mkFormal sINT (Some sINT)] 0 0.
Definition bp_a := mkVar xInteger 2 (-2).
Definition bp_n := mkVar xInteger 2 0.
Definition eplus (x y : var) := ESimple (SBin (STerm false (TFactor (FVar x))) Plus (TFactor (FVar y))).
Definition tplus (x y : var) := [vt x] ++ [kt tPLUS; vt y].
Lemma gplus x y : ~ In (vty x) [xUnknown; xAnyOrdinal] -> ~ In (vty y) [xUnknown; xAnyOrdinal] -> gexpr (tplus x y) (eplus x y).
Proof.
  intros H K. apply g_simple, g_add; [|reflexivity|apply g_factor, g_var, spelt, K]. apply g_term, g_factor, g_var, spelt, H.
Qed.
Definition bp_loop := SWhile (erel bp_n Less 6) (SBlock (SMore (SAssign x1 (eplus x1 bp_a)) (SOne (incr bp_n 1)))).
Definition bp_tokens := kt tBEGIN :: (kt tWHILE :: trel bp_n tLT 6 ++ kt tDO ::
  (kt tBEGIN :: ((vt x1 :: kt tASSIGN :: tplus x1 bp_a) ++ semi :: tincr bp_n 1) ++ [kt tEND])) ++ [kt tEND].
Definition bp_inits := [add_var_initializer (mkSym 2 0 2 0) (kind_of xInteger) 3 0].
Definition bp_call := kt 0x46 :: kt tLPAREN :: tadd x1 2 ++ [kt tRPAREN].

Lemma bp_grammar : gblock bp_tokens (SOne bp_loop).
Proof.
  apply gb_block; [reflexivity| |reflexivity]. eapply gs_one, gs_while; [reflexivity|apply grel; [vark|reflexivity]|reflexivity|].
  apply gs_block; [reflexivity| |reflexivity]. eapply gs_more; [apply gs_assign; [apply spelt; vark|reflexivity|apply gplus; vark]|reflexivity|].
  eapply gs_one, gincr; vark.
Qed.
Lemma bp_text : block_text 2 ([x1] ++ (result_vars 2 None [ByValue xInteger] ++ value_vars 2 [ByValue xInteger]) ++ [bp_n]) 2 bp_inits [(bp_n, 3)] bp_tokens (SOne bp_loop).
Proof.
  constructor.
  - exact bp_grammar.
  - repeat split; try reflexivity; discriminate.
  - cbn. intros x H. repeat destruct H as [<-|H]; try destruct H; (split; [cbn; auto|repeat split; vm_compute; congruence]).
  - repeat constructor; vm_compute; congruence.
  - vm_compute. congruence.
  - constructor; [|constructor]. apply (gives_value (mkSym 2 0 2 0) bp_n 3 0); vm_compute; congruence.
  - constructor; [intros []|constructor].
  - intros x [<-|[]]. split; [cbn; auto|repeat split; vm_compute; congruence].
  - lia.
Qed.
Lemma bp_locals : locals 2 2 [bp_n].
Proof.
  constructor.
  - intros x [<-|[]]. cbn. lia.
  - intros x y [<-|[]] [<-|[]] N. congruence.
Qed.
Lemma bp_list : glist 1 [ByValue xInteger] (kt tLPAREN :: tadd x1 2 ++ [kt tRPAREN]) [AExpr (eadd x1 2)].
Proof.
  apply gl_args; [reflexivity|apply ActSpec.gs_one|reflexivity]. apply ga_value; [apply gadd; vark|reflexivity|]. intros x [<-|[]]. apply x1_addressable.
Qed.

Lemma vmc_surrounded : surrounded vmc 1 200.
Proof.
  intros s' (C & _ & F & _) R. rewrite F.
  assert (R0 : forall i v, i <= 125 -> rd vmc i = Some v -> rd s' i = Some v) by (intros i v Hi <-; apply R; exact Hi).
  assert (L1 : frame_level s' 200 1) by (exists 1, 0; split; [apply R0; [vm_compute; congruence|reflexivity]|lia]).
  split.
  - exists 1. eapply (chain_nested s' 200 1 180 0); [exact L1|lia| |lia|apply chain_main].
    + apply R0; [vm_compute; congruence|reflexivity].
    + exists 0, 0. split; [apply R0; [vm_compute; congruence|reflexivity]|lia].
  - exists 0%nat. split; [apply reaches_0|]. split; [exact L1|]. intros j g Hj. lia.
Qed.
Lemma vmc_placed : placed 1 [x1] (fun _ => 214) (fun _ => False) 107 (with_fp vmc 200).
Proof.
  constructor.
  - lia.
  - intros s (_ & _ & F & _) _ x [<-|[]]. apply x1_address, F.
  - intros i [].
  - intros x [<-|[]]. vm_compute. intuition congruence.
  - intros x y [<-|[]] [<-|[]] N. congruence.
Qed.
Lemma vmc_holding : holding [x1] (fun _ => 214) vmc (fun _ => 31).
Proof. intros x [<-|[]]. vm_compute. reflexivity. Qed.

Lemma bp_means : forall r r1, (forall x, In x [x1] -> r x = 31) -> arrived 2 [ByValue xInteger] [33] r -> started [(bp_n, 3)] r r1 ->
  exists r', means_seq (SOne bp_loop) r1 Normal r' /\ r' x1 = 130.
Proof.
  intros r r1 Hx (Ha & _) (S1 & S2).
  assert (Lim : forall z, -32768 <= z <= 32767 -> limit xInteger z = Some z)
    by (intros z Hz; unfold limit; replace (inr xInteger z) with true by (cbn; lia); reflexivity).
  assert (N1 : r1 bp_n = 3) by (apply S1; left; reflexivity).
  assert (X1 : r1 x1 = 31) by (rewrite S2; [apply Hx; left; reflexivity|intros [E|[]]; discriminate E]).
  assert (A1 : r1 bp_a = 33) by (rewrite S2; [apply (Ha eq_refl)|intros [E|[]]; discriminate E]).
  assert (St : forall r n x, r bp_n = n -> r x1 = x -> r bp_a = 33 -> 0 <= n < 6 -> 0 <= x < 200 ->
    means (SBlock (SMore (SAssign x1 (eplus x1 bp_a)) (SOne (incr bp_n 1)))) r Normal (set (set r x1 (x + 33)) bp_n (n + 1)) /\
    evalue r xBoolean (erel bp_n Less 6) = Some (-1)).
  { intros q n x E1 E2 E3 L1 L2. split.
    - exists Normal, (set q x1 (x + 33)). split.
      + exists (x + 33). split; [|split; [|split; reflexivity]].
        * cbn. rewrite E2, E3. repeat (rewrite Lim by lia; cbn). reflexivity.
        * cbn. lia.
      + exists (n + 1). split; [|split; [|split; reflexivity]].
        * cbn. unfold set. cbn. rewrite E1. repeat (rewrite Lim by lia; cbn). reflexivity.
        * cbn. lia.
    - cbn. rewrite E1. repeat (rewrite Lim by lia; cbn). unfold value_rel. cbn. repeat (rewrite Lim by lia; cbn). replace (n <? 6) with true by lia. reflexivity. }
  destruct (St r1 3 31 N1 X1 A1) as (B1 & T1); [lia|lia|].
  set (r2 := set (set r1 x1 (31 + 33)) bp_n (3 + 1)) in *.
  destruct (St r2 4 64) as (B2 & T2); [reflexivity|reflexivity|exact A1|lia|lia|].
  set (r3 := set (set r2 x1 (64 + 33)) bp_n (4 + 1)) in *.
  destruct (St r3 5 97) as (B3 & T3); [reflexivity|reflexivity|exact A1|lia|lia|].
  set (r4 := set (set r3 x1 (97 + 33)) bp_n (5 + 1)) in *.
  exists r4. split; [|reflexivity]. split; [reflexivity|].
  eapply while_again; [exact T1|discriminate|exact B1|discriminate|].
  eapply while_again; [exact T2|discriminate|exact B2|discriminate|].
  eapply while_again; [exact T3|discriminate|exact B3|discriminate|]. apply while_end. reflexivity.
Qed.

(** The hypotheses, and what follows for this case *)
Lemma bp_described : Forall2 described (pFormals bp_proc) [ByValue xInteger].
Proof. constructor; [split; [discriminate|left; reflexivity]|constructor]. Qed.
Lemma bp_passed : all_passed (fun _ => 31) (fun _ => 214) [ByValue xInteger] [AExpr (eadd x1 2)] [33].
Proof. constructor; [vm_compute; auto|constructor]. Qed.
Lemma bp_provided : Forall (provided 1 vmc (fun _ => 31) (fun _ => 214)) [AExpr (eadd x1 2)].
Proof. constructor; [intros x [<-|[]]; exact x1_located|constructor]. Qed.

Lemma stands_at a b c : stands (a ++ b ++ c) (length a) b.
Proof.
  intros k p H. rewrite nth_error_app2 by lia. replace (length a + k - length a)%nat with k by lia.
  rewrite nth_error_app1; [exact H|]. apply nth_error_Some. congruence.
Qed.

Lemma procedure_case : exists call body c1 c2 s',
  proc_statement 100 bp_proc (start_at 1 bp_call) = ADone c1 /\ errs c1 = [] /\ out c1 = call /\
  routine 200 80 81 2 None bp_inits (start_at 2 (bp_tokens ++ [semi])) = SDone c2 /\ errs c2 = [] /\ out c2 = body /\
  cruns (call ++ body) (0%nat, [], vmc) (length call, [], s') /\ sp s' = sp vmc /\ same_regs vmc s' /\ rd s' 107 = Some 130.
Proof.
  destruct (procedure_called 1 bp_proc [ByValue xInteger] _ _ bp_described bp_list ltac:(cbn; lia) ltac:(cbn; lia) ltac:(vm_compute; congruence)) as (call & C & K).
  destruct (C (start_at 1 bp_call) (kt 0x46) [] 100%nat) as (c1 & E1 & E2 & E3 & E4 & _); [reflexivity|discriminate|reflexivity|vm_compute; lia|].
  destruct (K [x1] [bp_n] 2 bp_inits [(bp_n, 3)] bp_tokens (SOne bp_loop)) with (c := start_at 2 (bp_tokens ++ [semi])) (b := semi) (rest := @nil tok) (label := 81) (inner := @None (list opType))
    as (c2 & body & R1 & R2 & R3 & R4 & R5 & P).
  { intros x [<-|[]]. cbn. lia. }
  { exact bp_locals. }
  { exact bp_text. }
  all: try reflexivity; try (vm_compute; congruence); try lia.
  specialize (P (call ++ body) 0%nat (length call)).
  destruct P with (env0 := fun _ : var => 31) (adr := fun _ : var => 214) (vs := [33]) (s := vmc) (ks := @nil nat) (h := 200)
    (oadr := fun _ : var => 214) (olinks := fun _ : Z => False) (obase := 107) (ro := fun _ : var => 31) (Q := fun r : env => r x1 = 130)
    as (s' & r' & X1 & X2 & X3 & X4 & X5 & X6 & X7).
  - apply (stands_at [] call body).
  - pose proof (stands_at call body []) as X. rewrite app_nil_r in X. exact X.
  - exact bp_passed.
  - exact bp_provided.
  - repeat split; vm_compute; congruence.
  - repeat split; vm_compute; congruence.
  - exact vmc_surrounded.
  - exact vmc_placed.
  - vm_compute. congruence.
  - exact vmc_holding.
  - exact bp_means.
  - exists call, body, c1, c2, s'. cbn [out start_at app] in E4, R5. split; [exact E1|]. split; [exact E3|]. split; [assumption|].
    split; [apply R1; vm_compute; lia|]. split; [exact R3|]. split; [assumption|]. split; [exact X1|]. split; [lia|]. split; [exact X3|].
    pose proof (X5 x1 (or_introl eq_refl)) as V. rewrite X2 in V. exact V.
Qed.

(** ** A case: function f(a : Integer) : Integer; begin f := x + a end;
    called as f(x + 2) with x = 31 *)

Definition bf_proc := mkProc 1 82 [mkFormal sINT (Some sINT)] sINT 2.
Definition bf_f := mkVar xInteger 2 (-4).
Definition bf_stmt := SAssign bf_f (eplus x1 bp_a).
Definition bf_tokens := kt tBEGIN :: (vt bf_f :: kt tASSIGN :: tplus x1 bp_a) ++ [kt tEND].
Lemma bf_text : block_text 2 ([x1] ++ (result_vars 2 (Some xInteger) [ByValue xInteger] ++ value_vars 2 [ByValue xInteger]) ++ []) 0 [] [] bf_tokens (SOne bf_stmt).
Proof.
  constructor.
  - apply gb_block; [reflexivity| |reflexivity]. eapply gs_one, gs_assign; [apply spelt; vark|reflexivity|apply gplus; vark].
  - repeat split; try reflexivity; discriminate.
  - cbn. intros x H. repeat destruct H as [<-|H]; try destruct H; (split; [cbn; auto|repeat split; vm_compute; congruence]).
  - repeat constructor; vm_compute; congruence.
  - vm_compute. congruence.
  - constructor.
  - constructor.
  - intros x [].
  - lia.
Qed.
Lemma function_case : exists call body c1 c2 s',
  function_designator 100 bf_proc (start_at 1 bp_call) = Done xInteger c1 /\ errs c1 = [] /\ out c1 = call /\
  routine 200 82 83 0 None [] (start_at 2 (bf_tokens ++ [semi])) = SDone c2 /\ errs c2 = [] /\ out c2 = body /\
  cruns (call ++ body) (0%nat, [], vmc) (length call, [], s') /\ sp s' = sp vmc + 2 /\ same_regs vmc s' /\ rd s' 126 = Some 64.
Proof.
  destruct (function_called' 1 bf_proc [ByValue xInteger] _ _ xInteger bp_described bp_list ltac:(cbn; lia) ltac:(cbn; lia)
    ltac:(discriminate) eq_refl eq_refl ltac:(vm_compute; congruence)) as (call & C & K).
  destruct (C (start_at 1 bp_call) (kt 0x46) [] 100%nat) as (c1 & E1 & E2 & E3 & E4 & _); [reflexivity|discriminate|reflexivity|vm_compute; lia|].
  destruct (K [x1] [] 0 [] [] bf_tokens (SOne bf_stmt)) with (c := start_at 2 (bf_tokens ++ [semi])) (b := semi) (rest := @nil tok) (label := 83) (inner := @None (list opType))
    as (c2 & body & R1 & R2 & R3 & R4 & R5 & P).
  { intros x [<-|[]]. cbn. lia. }
  { split; [intros x []|intros x y []]. }
  { exact bf_text. }
  all: try reflexivity; try (vm_compute; congruence); try lia.
  specialize (P (call ++ body) 0%nat (length call)).
  destruct P with (env0 := fun _ : var => 31) (adr := fun _ : var => 214) (vs := [33]) (s := vmc) (ks := @nil nat) (h := 200)
    (oadr := fun _ : var => 214) (olinks := fun _ : Z => False) (obase := 107) (ro := fun _ : var => 31) (Q := fun r : env => r bf_f = 64)
    as (s' & r' & X1 & X2 & X3 & X4 & X5 & X6 & X7).
  - apply (stands_at [] call body).
  - pose proof (stands_at call body []) as X. rewrite app_nil_r in X. exact X.
  - exact bp_passed.
  - exact bp_provided.
  - repeat split; vm_compute; congruence.
  - repeat split; vm_compute; congruence.
  - exact vmc_surrounded.
  - exact vmc_placed.
  - vm_compute. congruence.
  - exact vmc_holding.
  - intros r r1 Hx (Ha & _) (_ & S2).
    assert (Lim : forall z, -32768 <= z <= 32767 -> limit xInteger z = Some z)
      by (intros z Hz; unfold limit; replace (inr xInteger z) with true by (cbn; lia); reflexivity).
    exists (set r1 bf_f 64). split; [|reflexivity]. exists 64. split; [|repeat split; reflexivity].
    assert (X1 : r1 x1 = 31) by (rewrite S2; [apply Hx; left; reflexivity|intros []]).
    assert (A1 : r1 bp_a = 33) by (rewrite S2; [apply (Ha eq_refl)|intros []]).
    cbn. rewrite X1, A1. reflexivity.
  - exists call, body, c1, c2, s'. cbn [out start_at app] in E4, R5. split; [exact E1|]. split; [exact E3|]. split; [assumption|].
    split; [apply R1; vm_compute; lia|]. split; [exact R3|]. split; [assumption|]. split; [exact X1|]. split; [exact X4|]. split; [exact X3|].
    change (result_var (pLevel bf_proc + 1) xInteger [ByValue xInteger]) with bf_f in X7. rewrite X2 in X7. exact X7.
Qed.

(** ** What contradicts *)

(** var l : LongInteger = 5: the high-order word is what the stack of the compiler
    contained *)
Lemma long_initial_value_refuted : exists v x z junk c' s', sLevel v = vlev x /\ vOffset v = voff x /\ vty x = xLongInteger /\
  storable xLongInteger z = true /\
  initialization [add_var_initializer v (kind_of (vty x)) z junk] (start_at 1 []) = SDone c' /\ errs c' = [] /\
  room vmc 10 /\ exec_list (out c') vmc = Ok s' /\ sp s' = sp vmc /\ contains s' (vty x) 218 (z + 65536 * 7) /\ ~ contains s' (vty x) 218 z.
Proof.
  exists (mkSym 1 8 4 0), l1, 5, 7. eexists _, _.
  split; [reflexivity|]. split; [reflexivity|]. split; [reflexivity|]. split; [reflexivity|]. split; [vm_compute; reflexivity|].
  split; [reflexivity|]. split; [repeat split; vm_compute; congruence|]. split; [vm_compute; reflexivity|]. split; [reflexivity|].
  split; [vm_compute|intros H; vm_compute in H]; intuition congruence.
Qed.

(** var r : record … f : file … end: its address is stored in the first word of the
    record, and the number of the file stays on the stack *)
Lemma file_field_refuted : exists v offset c' s1 s', 0 < offset /\
  initialization [IField v offset] (start_at 1 []) = SDone c' /\ errs c' = [] /\
  hd_error (out c') = Some (mkOp oSYSIO 0 xALLOCFILE) /\ exec_insn vmc (mkOp oPUSH 0 3) = Ok s1 /\
  exec_list (tl (out c')) s1 = Ok s' /\ sp s' = sp vmc + 2 /\ rd s' 109 = Some (218 + offset) /\ rd s' (109 + offset / 2) = Some 0.
Proof.
  exists (mkSym 1 8 6 0), 4. eexists _, _, _.
  split; [lia|]. split; [vm_compute; reflexivity|]. split; [reflexivity|]. split; [reflexivity|]. split; [vm_compute; reflexivity|].
  split; [vm_compute; reflexivity|]. split; [reflexivity|]. split; reflexivity.
Qed.
