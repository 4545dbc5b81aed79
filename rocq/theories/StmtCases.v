(** The statements about statements, and what contradicts them. *)

From Coq Require Import ZArith Bool List Lia ZifyBool.
From Verif Require Import Words State Opcodes EncodeModel Machine VmSpec OptSpec ExprModel ExprSpec ExprOps ExprLoad ExprCases StmtModel StmtSpec StmtRun StmtStep StmtMain StmtSound StmtTotal StmtLabels.
Import ListNotations.
Open Scope Z_scope.

(** ** C68 *)

Lemma translated : forall lev xs o ts st c rest,
  gstmt o ts st -> wf_stmt false false st -> (forall x, In x (stmt_vars st) -> In x xs /\ addressable lev x) ->
  Forall (fun t => 0 <= tline t <= 65535) (ts ++ [hd eoftok rest]) -> follows rest -> (o = true -> tk (hd eoftok rest) <> tELSE) ->
  toks c = ts ++ rest -> g_level c = lev -> 0 <= g_label c -> g_label c + 2 * Z.of_nat (length ts) <= 65535 ->
  -32768 + 2 * Z.of_nat (length ts) <= g_adjust c <= 0 ->
  exists c' ps,
    (forall n, (4 * length (toks c) + 5 <= n)%nat -> statement n c = SDone c') /\
    toks c' = rest /\ errs c' = errs c /\ out c' = out c ++ ps /\
    forall adr links base s0 prog i s r r',
      placed lev xs adr links base s0 -> stands prog i ps ->
      ready xs adr links base s0 s r -> base <= (sp s + g_adjust c) / 2 -> room s (2 * Z.of_nat (length ts)) ->
      means st r Normal r' ->
      exists s', runs prog (i, s) ((i + length ps)%nat, s') /\ effect xs adr s s' 0 r'.
Proof.
  intros lev xs o ts st c rest G Wf U Ln Fo El Tk Lv R1 R2 R3.
  apply Forall_app in Ln. destruct Ln as (L1 & L2). apply Forall_inv in L2.
  destruct (proj1 (all_sound lev xs) o ts st G false false Wf U L1 rest Fo El L2 (out c) (errs c) (g_label c) (g_continue c) (g_break c) (g_adjust c)
    R1 R2 ltac:(discriminate) ltac:(discriminate) ltac:(lia) ltac:(lia)) as (ps & l' & N & R & C & S).
  exists (mkComp rest (out c ++ ps) (errs c) l' lev (g_continue c) (g_break c) (g_adjust c)), ps.
  replace (mkComp (ts ++ rest) (out c) (errs c) (g_label c) lev (g_continue c) (g_break c) (g_adjust c)) with c in C
    by (rewrite <- Tk, <- Lv; destruct c; reflexivity).
  split; [|split; [reflexivity|split; [reflexivity|split; [reflexivity|]]]].
  - intros n F. rewrite <- (C (max N n)) by lia. symmetry. apply statement_fuel; [lia|]. apply statement_ends. exact F.
  - intros adr links base s0 prog i s r r' P St Rd B Rm M.
    assert (Ev : c_ssz (cf s0) mod 2 = 0).
    { destruct Rd as ((E & _) & _). rewrite <- E. apply Rm. }
    destruct (S adr links base s0 P Ev prog i St s r Normal r' Rd B Rm M) as (s' & X & (M1 & M2 & M3 & M4 & M5)).
    exists s'. split; [exact X|]. cbn [length] in M2. split; [exact M1|]. split; [lia|]. split; [exact M5|].
    intros j Hj Nw. apply M4; [|exact Nw]. replace (sp s') with (sp s) in Hj by lia. exact Hj.
Qed.

(** ** C69 *)

Lemma nodup_labels prog l i j : NoDup (labels prog) -> labelled prog l i -> labelled prog l j -> i = j.
Proof.
  unfold labelled. revert i j. induction prog as [|p prog IH]; intros i j N A B; [destruct i; discriminate A|].
  assert (X : forall k, nth_error prog k = Some (mkOp oLABEL 0 l) -> In l (labels prog)).
  { intros k K. apply nth_error_In in K. unfold labels. apply in_map_iff. exists (mkOp oLABEL 0 l). split; [reflexivity|].
    apply filter_In. split; [exact K|reflexivity]. }
  unfold labels in N. cbn [filter] in N.
  destruct i as [|i], j as [|j]; cbn [nth_error] in A, B.
  - reflexivity.
  - exfalso. injection A as ->. cbn in N. inversion N as [|? ? N1 N2]. apply N1. exact (X _ B).
  - exfalso. injection B as ->. cbn in N. inversion N as [|? ? N1 N2]. apply N1. exact (X _ A).
  - f_equal. apply IH; [|exact A|exact B]. destruct (op p =? oLABEL); [cbn in N; inversion N; assumption|exact N].
Qed.
Lemma step_det prog a b b' : NoDup (labels prog) -> step prog a b -> step prog a b' -> b = b'.
Proof.
  intros N A B. destruct A as [i s p P1 P2|i s p s' P1 P2 P3 P5|i s p l s' j P1 P2 P3 P4]; inversion B; subst;
    match goal with H : nth_error prog i = Some ?q |- _ => rewrite P1 in H; injection H as <- end; try congruence.
  rewrite P3 in *. match goal with H : Jumps _ _ = Jumps _ _ |- _ => injection H as <- <- end.
  f_equal. eapply nodup_labels; eassumption.
Qed.
Lemma runs_det prog a b c : NoDup (labels prog) -> (forall d, ~ step prog b d) -> (forall d, ~ step prog c d) ->
  runs prog a b -> runs prog a c -> b = c.
Proof.
  intros N Eb Ec A. revert c Ec. induction A as [a|a a' b A1 A2 IH]; intros c Ec B.
  - destruct B as [|? ? ? B1 _]; [reflexivity|]. destruct (Eb _ B1).
  - destruct B as [x|x b1 c B1 B2].
    + destruct (Ec _ A1).
    + apply IH; [exact Eb|exact Ec|]. rewrite (step_det _ _ _ _ N A1 B1). exact B2.
Qed.

(** ** Running code *)

Fixpoint label_at (prog : list opType) (l : Z) (i : nat) : option nat :=
  match prog with
  | [] => None
  | mkOp k a v :: ps => if (k =? oLABEL) && (a =? 0) && (v =? l) then Some i else label_at ps l (S i)
  end.
Lemma label_found prog l : forall i j, label_at prog l i = Some j -> exists k, j = (i + k)%nat /\ labelled prog l k.
Proof.
  induction prog as [|[k a v] ps IH]; intros i j H; [discriminate|]. cbn [label_at] in H.
  destruct ((k =? oLABEL) && (a =? 0) && (v =? l)) eqn:E.
  - injection H as <-. exists 0%nat. split; [lia|]. unfold labelled. cbn. repeat f_equal; lia.
  - destruct (IH _ _ H) as (m & -> & L). exists (S m). split; [lia|exact L].
Qed.
Definition one_step (prog : list opType) (a : nat * st) : option (nat * st) :=
  match nth_error prog (fst a) with
  | None => None
  | Some p =>
    if is_pseudo p then Some (S (fst a), snd a)
    else match flow_op (snd a) p with
         | Falls s' => if is_call p then None else Some (S (fst a), s')
         | Jumps l s' => match label_at prog l 0 with Some j => Some (j, s') | None => None end
         | Stops => None
         end
  end.
Fixpoint steps (n : nat) (prog : list opType) (a : nat * st) : nat * st :=
  match n with O => a | S n' => match one_step prog a with Some b => steps n' prog b | None => a end end.
Lemma steps_run n prog : forall a, runs prog a (steps n prog a).
Proof.
  induction n as [|n IH]; intros [i s]; cbn [steps]; [apply runs_refl|].
  destruct (one_step prog (i, s)) as [b|] eqn:E; [|apply runs_refl].
  eapply runs_step; [|apply IH]. unfold one_step in E. cbn [fst snd] in E.
  destruct (nth_error prog i) as [p|] eqn:P; [|discriminate].
  destruct (is_pseudo p) eqn:Q; [injection E as <-; eapply step_pseudo; eassumption|].
  destruct (flow_op s p) as [s'|l s'|] eqn:F; [destruct (is_call p) eqn:Q2; [discriminate|]; injection E as <-; eapply step_falls; eassumption| |discriminate].
  destruct (label_at prog l 0) as [j|] eqn:L; [|discriminate]. injection E as <-.
  destruct (label_found _ _ _ _ L) as (k & -> & K). eapply step_jumps; eassumption.
Qed.
Lemma steps_end n prog a e f : (let (i, s) := steps n prog a in Nat.eqb i e && f s) = true -> exists s, runs prog a (e, s) /\ f s = true.
Proof.
  pose proof (steps_run n prog a) as R. destruct (steps n prog a) as [i s]. intros H.
  apply andb_true_iff in H. destruct H as (E & F). apply Nat.eqb_eq in E. subst e. eauto.
Qed.
Definition word_is (s : st) (i v : Z) : bool := match rd s i with Some w => w =? v | None => false end.
Lemma word_is_rd s i v : word_is s i v = true -> rd s i = Some v.
Proof. unfold word_is. destruct (rd s i); [|discriminate]. intros H. f_equal. lia. Qed.

(** ** Programs for the cases *)

Definition y1 := mkVar xInteger 1 6.
Definition w1 := mkVar xWord 1 8.
Definition b1 := mkVar xBoolean 1 8.
Definition l1 := mkVar xLongInteger 1 8.
Definition h1 := mkVar xShortInteger 1 8.
Definition h2 := mkVar xShortInteger 1 9.
Definition brkt := mkTok tSTDPROC 0 txBREAK nosym 1.
Definition contt := mkTok tSTDPROC 0 txCONTINUE nosym 1.
Definition semi := kt tSEMICOLON.

(** x + n, x < n, ... *)
Definition evar_ (x : var) := ESimple (STerm false (TFactor (FVar x))).
Definition eint (n : Z) := ESimple (ten n).
Definition eadd (x : var) (n : Z) := ESimple (SBin (STerm false (TFactor (FVar x))) Plus (TFactor (FInt n))).
Definition erel (x : var) (o : rel) (n : Z) := ERel (STerm false (TFactor (FVar x))) o (ten n).
Definition tadd (x : var) (n : Z) := [vt x] ++ [kt tPLUS; nt n].
Definition trel (x : var) (o : Z) (n : Z) := [vt x] ++ [kt o; nt n].
Definition incr (x : var) (n : Z) := SAssign x (eadd x n).
Definition tincr (x : var) (n : Z) := vt x :: kt tASSIGN :: tadd x n.

Lemma spelt x : ~ In (vty x) [xUnknown; xAnyOrdinal] -> spells_var (vt x) x.
Proof. intros H. repeat split. exact H. Qed.
Lemma gvar x : ~ In (vty x) [xUnknown; xAnyOrdinal] -> gexpr [vt x] (evar_ x).
Proof. intros H. apply g_simple, g_term, g_factor, g_var, spelt, H. Qed.
Lemma gint n : gexpr [nt n] (eint n).
Proof. apply g_simple, gten. Qed.
Lemma gadd x n : ~ In (vty x) [xUnknown; xAnyOrdinal] -> gexpr (tadd x n) (eadd x n).
Proof. intros H. apply g_simple, g_add; [|reflexivity|apply g_factor, g_int; reflexivity]. apply g_term, g_factor, g_var, spelt, H. Qed.
Lemma grel x o k n : ~ In (vty x) [xUnknown; xAnyOrdinal] -> spells_rel (kt k) o -> gexpr (trel x k n) (erel x o n).
Proof. intros H K. apply g_rel; [|exact K|apply gten]. apply g_term, g_factor, g_var, spelt, H. Qed.
Lemma gincr x n : ~ In (vty x) [xUnknown; xAnyOrdinal] -> gstmt false (tincr x n) (incr x n).
Proof. intros H. apply gs_assign; [apply spelt, H|reflexivity|apply gadd, H]. Qed.
Ltac vark := vm_compute; intuition discriminate.

(** x at word 107, y at word 108, and two more words *)
Definition vm2 (x y a b : Z) := mkSt (fun i => if i =? 107 then x else if i =? 108 then y else if i =? 109 then a else if i =? 110 then b else 0)
  (mkCfg 4096 200 2000 0 1000) 220 0 200 0 0 0.

(** REPEAT x := x + 1; IF x < 5 THEN CONTINUE UNTIL x > 0 *)
Definition rc_tokens := kt tREPEAT :: (tincr x1 1 ++ semi :: (kt tIF :: trel x1 tLT 5 ++ kt tTHEN :: [contt])) ++ kt tUNTIL :: trel x1 tGT 0.
Definition rc_stmt := SRepeat (SMore (incr x1 1) (SOne (SIf (erel x1 Less 5) SContinue))) (erel x1 Greater 0).
Lemma repeat_continue_refuted : exists ts st c' r',
  gstmt false ts st /\ st = SRepeat (SMore (incr x1 1) (SOne (SIf (erel x1 Less 5) SContinue))) (erel x1 Greater 0) /\
  means st (fun _ => 0) Normal r' /\ r' x1 = 1 /\
  statement 100 (start_at 1 (ts ++ [semi])) = SDone c' /\ errs c' = [] /\ toks c' = [semi] /\ NoDup (labels (out c')) /\
  exists s', runs (out c') (0%nat, vm2 0 0 0 0) (length (out c'), s') /\ rd s' 107 = Some 5.
Proof.
  exists rc_tokens, rc_stmt. eexists. exists (set (fun _ => 0) x1 1).
  split; [|split; [reflexivity|split; [|split; [reflexivity|split; [vm_compute; reflexivity|split; [reflexivity|split; [reflexivity|split]]]]]]].
  - apply gs_repeat; [reflexivity| |reflexivity|apply grel; [vark|reflexivity]].
    eapply gs_more; [apply gincr; vark|reflexivity|]. eapply gs_one. eapply gs_if; [reflexivity|apply grel; [vark|reflexivity]|reflexivity|].
    apply gs_continue; reflexivity.
  - cbn [means rc_stmt]. split; [reflexivity|]. eapply repeat_end with (h := Continued) (z := -1); [|discriminate|reflexivity|discriminate].
    cbn [means_seq]. exists Normal, (set (fun _ => 0) x1 1). split; [exists 1; repeat split; reflexivity|].
    exists (-1). split; [reflexivity|]. cbn. split; reflexivity.
  - vm_compute. repeat constructor; vm_compute; intuition discriminate.
  - match goal with |- context [runs ?p (0%nat, ?v) _] =>
      destruct (steps_end 500 p (0%nat, v) (length p) (fun s => word_is s 107 5)) as (s' & R & W); [vm_compute; reflexivity|] end.
    exists s'. split; [exact R|]. apply word_is_rd. exact W.
Qed.

Definition tfor x n d m b := kt tFOR :: vt x :: kt tASSIGN :: n ++ kt d :: m ++ kt tDO :: b.
Lemma gfor x ts e1 us e2 o vs s : ~ In (vty x) [xUnknown; xAnyOrdinal] -> gexpr ts e1 -> gexpr us e2 -> gstmt o vs s ->
  gstmt o (tfor x ts tTO us vs) (SFor x false e1 e2 s).
Proof. intros K A B C. apply gs_for; try assumption; try reflexivity. apply spelt, K. Qed.
Ltac run_to n f := match goal with |- context [runs ?p (0%nat, ?v) _] =>
  destruct (steps_end n p (0%nat, v) (length p) f) as (s' & R & W); [vm_compute; reflexivity|]; exists s'; split; [exact R|] end.
Ltac nodup := vm_compute; repeat constructor; vm_compute; intuition discriminate.

(** FOR x := 32766 TO 32767 DO BEGIN y := y + 1; IF y = 5 THEN BREAK END *)
Definition fl_body := SBlock (SMore (incr y1 1) (SOne (SIf (erel y1 Equal 5) SBreak))).
Definition fl_tokens := tfor x1 [nt 32766] tTO [nt 32767]
  (kt tBEGIN :: (tincr y1 1 ++ semi :: (kt tIF :: trel y1 tEQ 5 ++ kt tTHEN :: [brkt])) ++ [kt tEND]).
Lemma for_limit_refuted : exists ts body c' r',
  gstmt false ts (SFor x1 false (eint 32766) (eint 32767) body) /\ wf_stmt true true body /\
  for_each (means body) x1 [32766; 32767] (fun _ => 0) r' /\ r' y1 = 2 /\
  statement 100 (start_at 1 (ts ++ [semi])) = SDone c' /\ errs c' = [] /\ toks c' = [semi] /\ NoDup (labels (out c')) /\
  exists s', runs (out c') (0%nat, vm2 0 0 0 0) (length (out c'), s') /\ rd s' 108 = Some 5.
Proof.
  exists fl_tokens, fl_body. eexists. exists (set (set (set (set (fun _ => 0) x1 32766) y1 1) x1 32767) y1 2).
  split; [|split; [|split; [|split; [reflexivity|split; [vm_compute; reflexivity|split; [reflexivity|split; [reflexivity|split; [nodup|]]]]]]]].
  - apply gfor; [vark|apply gint|apply gint|]. apply gs_block; [reflexivity| |reflexivity].
    eapply gs_more; [apply gincr; vark|reflexivity|]. eapply gs_one, gs_if; [reflexivity|apply grel; [vark|reflexivity]|reflexivity|].
    apply gs_break; reflexivity.
  - repeat split; try reflexivity; discriminate.
  - eapply each_next with (h := Normal); [|discriminate|eapply each_next with (h := Normal); [|discriminate|apply each_end]].
    + exists Normal, (set (set (fun _ => 0) x1 32766) y1 1). split; [exists 1; repeat split; reflexivity|].
      exists 0. split; [reflexivity|]. split; reflexivity.
    + exists Normal, (set (set (set (set (fun _ => 0) x1 32766) y1 1) x1 32767) y1 2). split; [exists 2; repeat split; reflexivity|].
      exists 0. split; [reflexivity|]. split; reflexivity.
  - run_to 1000%nat (fun s => word_is s 108 5). apply word_is_rd. exact W.
Qed.

(** FOR x := 1 TO x DO y := y + 1, with x = 5 *)
Lemma for_final_refuted : exists ts c' r r',
  gstmt false ts (SFor x1 false (eint 1) (evar_ x1) (incr y1 1)) /\ r x1 = 5 /\ evalue r xInteger (evar_ x1) = Some 5 /\
  for_each (means (incr y1 1)) x1 [1; 2; 3; 4; 5] r r' /\ r' y1 = 5 /\
  statement 100 (start_at 1 (ts ++ [semi])) = SDone c' /\ errs c' = [] /\ toks c' = [semi] /\ NoDup (labels (out c')) /\
  exists s', runs (out c') (0%nat, vm2 5 0 0 0) (length (out c'), s') /\ rd s' 108 = Some 1.
Proof.
  set (r := set (fun _ => 0) x1 5).
  set (r1 := set (set r x1 1) y1 1). set (r2 := set (set r1 x1 2) y1 2). set (r3 := set (set r2 x1 3) y1 3).
  set (r4 := set (set r3 x1 4) y1 4). set (r5 := set (set r4 x1 5) y1 5).
  exists (tfor x1 [nt 1] tTO [vt x1] (tincr y1 1)). eexists. exists r, r5.
  split; [|split; [reflexivity|split; [reflexivity|split; [|split; [reflexivity|split; [vm_compute; reflexivity|split; [reflexivity|split; [reflexivity|split; [nodup|]]]]]]]]].
  - apply gfor; [vark|apply gint|apply gvar; vark|apply gincr; vark].
  - eapply (each_next _ _ _ _ _ Normal r1); [exists 1; repeat split; reflexivity|discriminate|].
    eapply (each_next _ _ _ _ _ Normal r2); [exists 2; repeat split; reflexivity|discriminate|].
    eapply (each_next _ _ _ _ _ Normal r3); [exists 3; repeat split; reflexivity|discriminate|].
    eapply (each_next _ _ _ _ _ Normal r4); [exists 4; repeat split; reflexivity|discriminate|].
    eapply (each_next _ _ _ _ _ Normal r5); [exists 5; repeat split; reflexivity|discriminate|]. apply each_end.
  - run_to 1000%nat (fun s => word_is s 108 1). apply word_is_rd. exact W.
Qed.

(** FOR h := 1 TO 3 DO y := y + 1 with a variable of 8 bits: the byte behind it, which
    contains 5, is overwritten *)
Lemma for_short_refuted : exists ts c',
  gstmt false ts (SFor h1 false (eint 1) (eint 3) (incr y1 1)) /\ vty h1 = xShortInteger /\
  etype_of xShortInteger (eint 1) = Some xShortInteger /\ etype_of xShortInteger (eint 3) = Some xShortInteger /\
  statement 100 (start_at 1 (ts ++ [semi])) = SDone c' /\ errs c' = [] /\ toks c' = [semi] /\ NoDup (labels (out c')) /\
  rdb (vm2 0 0 (256 * 5) 0) 219 = Some 5 /\
  exists s', runs (out c') (0%nat, vm2 0 0 (256 * 5) 0) (length (out c'), s') /\ rdb s' 219 = Some 0.
Proof.
  exists (tfor h1 [nt 1] tTO [nt 3] (tincr y1 1)). eexists.
  split; [apply gfor; [vark|apply gint|apply gint|apply gincr; vark]|].
  split; [reflexivity|]. split; [reflexivity|]. split; [reflexivity|]. split; [vm_compute; reflexivity|].
  split; [reflexivity|]. split; [reflexivity|]. split; [nodup|]. split; [reflexivity|].
  run_to 1000%nat (fun s => match rdb s 219 with Some v => v =? 0 | None => false end).
  destruct (rdb s' 219); [|discriminate]. f_equal. lia.
Qed.

(** FOR l := 1 TO 3 DO y := y + 1 with a variable of 32 bits: the body is executed once,
    and two words stay on the stack *)
Lemma for_long_refuted : exists ts c' r',
  gstmt false ts (SFor l1 false (eint 1) (eint 3) (incr y1 1)) /\ vty l1 = xLongInteger /\
  etype_of xLongInteger (eint 1) = Some xLongInteger /\ etype_of xLongInteger (eint 3) = Some xLongInteger /\
  for_each (means (incr y1 1)) l1 [1; 2; 3] (fun _ => 0) r' /\ r' y1 = 3 /\
  statement 100 (start_at 1 (ts ++ [semi])) = SDone c' /\ errs c' = [] /\ toks c' = [semi] /\ NoDup (labels (out c')) /\
  exists s', runs (out c') (0%nat, vm2 0 0 0 0) (length (out c'), s') /\ rd s' 108 = Some 1 /\ sp s' = sp (vm2 0 0 0 0) + 4.
Proof.
  set (r := (fun _ => 0) : env).
  set (r1 := set (set r l1 1) y1 1). set (r2 := set (set r1 l1 2) y1 2). set (r3 := set (set r2 l1 3) y1 3).
  exists (tfor l1 [nt 1] tTO [nt 3] (tincr y1 1)). eexists. exists r3.
  split; [apply gfor; [vark|apply gint|apply gint|apply gincr; vark]|].
  split; [reflexivity|]. split; [reflexivity|]. split; [reflexivity|]. split.
  { eapply (each_next _ _ _ _ _ Normal r1); [exists 1; repeat split; reflexivity|discriminate|].
    eapply (each_next _ _ _ _ _ Normal r2); [exists 2; repeat split; reflexivity|discriminate|].
    eapply (each_next _ _ _ _ _ Normal r3); [exists 3; repeat split; reflexivity|discriminate|]. apply each_end. }
  split; [reflexivity|]. split; [vm_compute; reflexivity|].
  split; [reflexivity|]. split; [reflexivity|]. split; [nodup|].
  run_to 1000%nat (fun s => word_is s 108 1 && (sp s =? 224)). apply andb_true_iff in W. destruct W as (W & W2).
  split; [apply word_is_rd; exact W|]. apply Z.eqb_eq in W2. rewrite W2. reflexivity.
Qed.

(** FOR x := 1 DO: the compiler goes on with jmpOp and modOp not initialised *)
Lemma for_undefined_refuted : exists c, errs c = [] /\ statement 100 c = SUndefined.
Proof. exists (start_at 1 [kt tFOR; vt x1; kt tASSIGN; nt 1; kt tDO; semi]). split; [reflexivity|vm_compute; reflexivity]. Qed.

(** CASE b OF TRUE: y := y + 1 END *)
Definition tcase ts us := kt tCASE :: ts ++ kt tOF :: us.
Lemma case_boolean_refuted : exists ts c',
  gstmt false ts (SCase (evar_ b1) (CCase [KBool true] (incr y1 1) CEnd)) /\ vty b1 = xBoolean /\
  statement 100 (start_at 1 (ts ++ [semi])) = SDone c' /\ errs c' = [eINTOVF].
Proof.
  exists (tcase [vt b1] ([bt true] ++ kt tCOLON :: tincr y1 1 ++ [kt tEND])). eexists.
  split; [|split; [reflexivity|split; [vm_compute; reflexivity|reflexivity]]].
  apply gs_case; [reflexivity|apply gvar; vark|reflexivity|].
  eapply gs_last; [apply gs_const1; repeat split; reflexivity|reflexivity|apply gincr; vark|reflexivity].
Qed.
(** CASE x OF -1: y := y + 1 END *)
Lemma case_negative_refuted : exists ts c',
  ts = tcase [vt x1] ([kt tMINUS; nt 1] ++ kt tCOLON :: tincr y1 1 ++ [kt tEND]) /\ vty x1 = xInteger /\
  statement 100 (start_at 1 (ts ++ [semi])) = SDone c' /\ errs c' = [eINTCONST; eCOLON; eEND].
Proof. do 2 eexists. split; [reflexivity|]. split; [reflexivity|]. split; [vm_compute; reflexivity|reflexivity]. Qed.
(** CASE l OF 1: y := y + 1 END with a selector of 32 bits, which is 1: the case is not
    taken, and a word stays on the stack *)
Lemma case_long_refuted : exists ts c' r',
  gstmt false ts (SCase (evar_ l1) (CCase [KInt 1] (incr y1 1) CEnd)) /\ vty l1 = xLongInteger /\
  means (SCase (evar_ l1) (CCase [KInt 1] (incr y1 1) CEnd)) (set (fun _ => 0) l1 1) Normal r' /\ r' y1 = 1 /\
  statement 100 (start_at 1 (ts ++ [semi])) = SDone c' /\ errs c' = [] /\ toks c' = [semi] /\ NoDup (labels (out c')) /\
  exists s', runs (out c') (0%nat, vm2 0 0 1 0) (length (out c'), s') /\ rd s' 108 = Some 0 /\ sp s' = sp (vm2 0 0 1 0) + 2.
Proof.
  exists (tcase [vt l1] ([nt 1] ++ kt tCOLON :: tincr y1 1 ++ [kt tEND])). eexists. exists (set (set (fun _ => 0) l1 1) y1 1).
  split.
  { apply gs_case; [reflexivity|apply gvar; vark|reflexivity|].
    eapply gs_last; [apply gs_const1; repeat split; reflexivity|reflexivity|apply gincr; vark|reflexivity]. }
  split; [reflexivity|]. split; [exists 1; split; [reflexivity|exists 1; repeat split; reflexivity]|].
  split; [reflexivity|]. split; [vm_compute; reflexivity|].
  split; [reflexivity|]. split; [reflexivity|]. split; [nodup|].
  run_to 1000%nat (fun s => word_is s 108 0 && (sp s =? 222)). apply andb_true_iff in W. destruct W as (W & W2).
  split; [apply word_is_rd; exact W|]. apply Z.eqb_eq in W2. rewrite W2. reflexivity.
Qed.
(** CASE x OF 'a': y := y + 1 END with an integer x is accepted. *)
Lemma case_type_refuted : exists ts c',
  gstmt false ts (SCase (evar_ x1) (CCase [KChar 97] (incr y1 1) CEnd)) /\ vty x1 = xInteger /\
  statement 100 (start_at 1 (ts ++ [semi])) = SDone c' /\ errs c' = [].
Proof.
  exists (tcase [vt x1] ([ct 97] ++ kt tCOLON :: tincr y1 1 ++ [kt tEND])). eexists.
  split; [|split; [reflexivity|split; [vm_compute; reflexivity|reflexivity]]].
  apply gs_case; [reflexivity|apply gvar; vark|reflexivity|].
  eapply gs_last; [apply gs_const1; repeat split; reflexivity|reflexivity|apply gincr; vark|reflexivity].
Qed.

(** WHILE x < 5 DO BREAK when 65534 labels have been used: the label of Break is 0, which
    means that there is no loop *)
Lemma wrap_refuted : exists ts c c',
  gstmt false ts (SWhile (erel x1 Less 5) SBreak) /\ toks c = ts ++ [semi] /\ g_label c = 65534 /\
  statement 100 c = SDone c' /\ errs c' = errs c ++ [eNOTINLOOP].
Proof.
  exists (kt tWHILE :: trel x1 tLT 5 ++ kt tDO :: [brkt]). eexists (mkComp _ [] [] 65534 1 0 0 0). eexists.
  split; [apply gs_while; [reflexivity|apply grel; [vark|reflexivity]|reflexivity|apply gs_break; reflexivity]|].
  split; [reflexivity|]. split; [reflexivity|]. split; [vm_compute; reflexivity|reflexivity].
Qed.

(** ** A program and a state that meet the hypotheses of C68 *)

(** FOR x := 1 TO 5 DO CASE x OF 1, 2: y := y + 1; ELSE BREAK END *)
Definition ex_tokens := tfor x1 [nt 1] tTO [nt 5]
  (tcase [vt x1] ((nt 1 :: kt tCOMMA :: [nt 2]) ++ kt tCOLON :: tincr y1 1 ++ semi :: (kt tELSE :: [brkt] ++ [kt tEND]))).
Definition ex_body := SCase (evar_ x1) (CCase [KInt 1; KInt 2] (incr y1 1) (CElse SBreak)).
Definition ex_stmt := SFor x1 false (eint 1) (eint 5) ex_body.
Definition ex_adr (v : var) := 210 + voff v.
Definition ex_result := set (set (set (set (set (fun _ => 0) x1 1) y1 1) x1 2) y1 2) x1 3.
Lemma ex_syntax : gstmt false ex_tokens ex_stmt /\ wf_stmt false false ex_stmt /\
  (forall x, In x (stmt_vars ex_stmt) -> In x [x1; y1] /\ addressable 1 x) /\
  Forall (fun t => 0 <= tline t <= 65535) (ex_tokens ++ [semi]) /\ follows [semi].
Proof.
  split; [|split; [|split; [|split]]].
  - apply gfor; [vark|apply gint|apply gint|]. apply gs_case; [reflexivity|apply gvar; vark|reflexivity|].
    eapply gs_cases; [apply gs_consts; [split; reflexivity|reflexivity|apply gs_const1; split; reflexivity]|reflexivity|apply gincr; vark|reflexivity|].
    eapply gs_else; [reflexivity|apply gs_break; reflexivity|reflexivity].
  - cbn. repeat split; try reflexivity; [intros []|]. exists xInteger. repeat split; try reflexivity; discriminate.
  - intros x H. cbn in H. assert (x = x1 \/ x = y1) as [-> | ->] by intuition; (split; [cbn; auto|]); repeat split; vm_compute; congruence.
  - repeat constructor; vm_compute; congruence.
  - vm_compute. auto.
Qed.
Lemma ex_placed : placed 1 [x1; y1] ex_adr (fun _ => False) 108 (vm2 0 0 0 0) /\
  ready [x1; y1] ex_adr (fun _ => False) 108 (vm2 0 0 0 0) (vm2 0 0 0 0) (fun _ => 0) /\
  room (vm2 0 0 0 0) (2 * Z.of_nat (length ex_tokens)).
Proof.
  split; [|split].
  - constructor.
    + lia.
    + intros s (_ & _ & F & _) _ x [<-|[<-|[]]]; cbn; unfold frame_ea; rewrite F; [exists 200, 4|exists 200, 6]; (split; [apply (reaches_0 s 200)|]);
        split; (split; [vm_compute; intuition congruence|exists 0; reflexivity]).
    + intros i [].
    + intros x [<-|[<-|[]]]; vm_compute; intuition congruence.
    + intros x y [<-|[<-|[]]] [<-|[<-|[]]] N; try (destruct N; reflexivity); vm_compute; intuition congruence.
  - split; [repeat split|]. split; [intros i []|]. split; [vm_compute; congruence|]. intros x [<-|[<-|[]]]; reflexivity.
  - repeat split; vm_compute; congruence.
Qed.
Lemma ex_means : means ex_stmt (fun _ => 0) Normal ex_result /\ ex_result x1 = 3 /\ ex_result y1 = 2.
Proof.
  split; [|split; reflexivity]. split; [reflexivity|]. exists 1, 5. split; [reflexivity|]. split; [reflexivity|].
  eapply for_again with (h := Normal) (r1 := set (set (fun _ => 0) x1 1) y1 1).
  - cbn. lia.
  - exists 1. split; [reflexivity|]. exists 1. repeat split; reflexivity.
  - discriminate.
  - reflexivity.
  - eapply for_again with (h := Normal) (r1 := set (set (set (set (fun _ => 0) x1 1) y1 1) x1 2) y1 2).
    + vm_compute. congruence.
    + exists 2. split; [reflexivity|]. exists 2. repeat split; reflexivity.
    + discriminate.
    + reflexivity.
    + apply for_break; [vm_compute; congruence|]. exists 3. split; [reflexivity|]. split; reflexivity.
Qed.
