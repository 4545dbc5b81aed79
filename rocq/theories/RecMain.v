(** The code of statements with calls does what they mean, given that the procedures
    do what they mean.  After StmtMain.v, StmtLoops.v, StmtFor.v and StmtCase.v. *)

From Coq Require Import ZArith Bool List Lia ZifyBool.
From Verif Require Import Words WordLemmas State StateLemmas Opcodes EncodeModel SetModel LongModel Machine VmSpec VmProofs MemProofs MultiProofs CallProofs
  OptSpec OptUnaryStep ExprModel ExprSpec ExprRun ExprOps ExprLoad ExprProofs ExprMain StmtModel StmtSpec StmtPlain StmtRun StmtStore StmtStep
  StmtMain StmtLoops StmtFor StmtCase ArrModel ArrCases ActModel ActSpec ActProofs ActRun BlockModel BlockSpec BlockProofs BlockFrame BlockCall BlockMain RecModel RecSpec.
From Verif Require Import StmtSpec StmtRun StmtMain.
Import ListNotations.
Open Scope Z_scope.
Local Transparent rewrites.

(** ** Runs with calls *)

Definition goes (prog : list opType) (a b : nat * st) : Prop := forall ks, cruns prog (fst a, ks, snd a) (fst b, ks, snd b).
Lemma goes_refl prog a : goes prog a a.
Proof. intros ks. constructor. Qed.
Lemma goes_trans prog a b c : goes prog a b -> goes prog b c -> goes prog a c.
Proof. intros H1 H2 ks. eapply cruns_trans; [apply H1|apply H2]. Qed.
Lemma goes_runs prog a b : runs prog a b -> goes prog a b.
Proof. intros H ks. apply cruns_runs, H. Qed.
Lemma goes_one prog a b : step prog a b -> goes prog a b.
Proof. intros H. apply goes_runs, runs_one, H. Qed.

(** Room on an aligned stack *)
Definition roomy (s : st) (k : Z) : Prop := room s k /\ sp s mod 2 = 0.
Lemma roomy_room s k : roomy s k -> room s k.
Proof. intros H. apply H. Qed.
Lemma roomy_mono s k k' : roomy s k -> k' <= k -> roomy s k'.
Proof. intros (H & E) L. split; [apply (room_mono _ _ _ H L)|exact E]. Qed.
Lemma moves_roomy xs adr s s1 ws r1 k : moves xs adr s s1 ws r1 -> roomy s k -> roomy s1 (k - Z.of_nat (length ws)).
Proof.
  intros M (H & E). split; [apply (moves_room xs adr s s1 ws r1 k M H)|]. destruct M as (_ & Q & _). rewrite Q. lia.
Qed.
Lemma go_pseudo prog i s p : nth_error prog i = Some p -> is_pseudo p = true -> goes prog (i, s) (S i, s).
Proof. intros H1 H2. apply goes_runs, (run_pseudo _ _ _ _ H1 H2). Qed.

Section Step.
  Variables (lev : Z) (xs : list var) (adr : var -> Z) (links : Z -> Prop) (base : Z) (s0 : st).
  Hypothesis P : placed lev xs adr links base s0.
  Hypothesis Even : c_ssz (cf s0) mod 2 = 0.
  Notation ready := (ready xs adr links base s0).
  Notation moves := (moves xs adr).
  Notation effect := (effect xs adr).
  Lemma go_jmp prog i j l s s1 us r r1 : nth_error prog i = Some (mkOp oJMP 0 l) -> labelled prog l j -> ready s r -> moves s s1 us r1 ->
    exists s2, goes prog (i, s1) (j, s2) /\ moves s s2 us r1.
  Proof. intros; repeat match goal with H : roomy _ _ |- _ => apply roomy_room in H end. edestruct (run_jmp lev xs adr links base s0 P Even) as (s' & E & X); [eassumption..|]. exists s'. split; [apply goes_runs, E|exact X]. Qed.
  Lemma go_equz prog i j l s s1 us w r r1 : nth_error prog i = Some (mkOp oJEQUZ 0 l) -> (w = 0 -> labelled prog l j) ->
    ready s r -> moves s s1 (us ++ [w]) r1 -> roomy s1 0 ->
    exists s2, goes prog (i, s1) ((if w =? 0 then j else S i), s2) /\ moves s s2 us r1.
  Proof. intros; repeat match goal with H : roomy _ _ |- _ => apply roomy_room in H end. edestruct (run_equz lev xs adr links base s0 P Even) as (s' & E & X); [eassumption..|]. exists s'. split; [apply goes_runs, E|exact X]. Qed.
  Lemma go_two prog i j c k (h : bool) l s s1 us a b r r1 : nth_error prog i = Some (mkOp k 0 l) -> In (c, k) jump_pairs2 ->
    rewrites (mkOp c 0 0) 0 [a; b] [(if h then -1 else 0) mod 65536] -> (h = true -> labelled prog l j) ->
    ready s r -> moves s s1 (us ++ [a; b]) r1 -> roomy s1 0 ->
    exists s2, goes prog (i, s1) ((if h then j else S i), s2) /\ moves s s2 us r1.
  Proof. intros; repeat match goal with H : roomy _ _ |- _ => apply roomy_room in H end. edestruct (run_two lev xs adr links base s0 P Even) as (s' & E & X); [eassumption..|]. exists s'. split; [apply goes_runs, E|exact X]. Qed.
  Lemma go_insn prog i p k s s1 us vs ws r r1 : nth_error prog i = Some p -> plain p -> rewrites p k vs ws ->
    ready s r -> moves s s1 (us ++ vs) r1 -> roomy s1 k ->
    exists s2, goes prog (i, s1) (S i, s2) /\ moves s s2 (us ++ ws) r1.
  Proof. intros; repeat match goal with H : roomy _ _ |- _ => apply roomy_room in H end. edestruct (run_insn lev xs adr links base s0 P Even) as (s' & E & X); [eassumption..|]. exists s'. split; [apply goes_runs, E|exact X]. Qed.
  Lemma go_pop prog i s s1 us w r r1 : nth_error prog i = Some (mkOp oINDS 0 (-2 mod 65536)) -> ready s r -> moves s s1 (us ++ [w]) r1 -> roomy s1 0 ->
    exists s2, goes prog (i, s1) (S i, s2) /\ moves s s2 us r1.
  Proof. intros; repeat match goal with H : roomy _ _ |- _ => apply roomy_room in H end. edestruct (run_pop lev xs adr links base s0 P Even) as (s' & E & X); [eassumption..|]. exists s'. split; [apply goes_runs, E|exact X]. Qed.
  Lemma go_load prog i x s s1 us r r1 : nth_error prog i = Some (refer lev oLDS x) -> vty x = xInteger -> In x xs ->
    ready s r -> moves s s1 us r1 -> roomy s1 1 ->
    exists s2, goes prog (i, s1) (S i, s2) /\ moves s s2 (us ++ [r1 x mod 65536]) r1.
  Proof. intros; repeat match goal with H : roomy _ _ |- _ => apply roomy_room in H end. edestruct (run_load lev xs adr links base s0 P Even) as (s' & E & X); [eassumption..|]. exists s'. split; [apply goes_runs, E|exact X]. Qed.
  Lemma go_storing prog i x s s1 us r r1 z : stands prog i (store_code lev x) ->
    ready s r -> moves s s1 (us ++ words (vty x) z) r1 -> roomy s1 1 -> In x xs ->
    class_of (vty x) <> None -> storable (vty x) z = true ->
    exists s2, goes prog (i, s1) ((i + length (store_code lev x))%nat, s2) /\ moves s s2 us (set r1 x z).
  Proof. intros; repeat match goal with H : roomy _ _ |- _ => apply roomy_room in H end. edestruct (run_storing lev xs adr links base s0 P Even) as (s' & E & X); [eassumption..|]. exists s'. split; [apply goes_runs, E|exact X]. Qed.
  Lemma go_leave prog i j l A s r : stands prog i (adjust_code A ++ [mkOp oJMP 0 l]) -> labelled prog l j ->
    ready s r -> roomy s 0 -> -32768 <= A <= 0 -> base <= (sp s + A) / 2 ->
    exists s', goes prog (i, s) (j, s') /\ effect s s' A r.
  Proof. intros; repeat match goal with H : roomy _ _ |- _ => apply roomy_room in H end. edestruct (run_leave lev xs adr links base s0 P Even) as (s' & E & X); [eassumption..|]. exists s'. split; [apply goes_runs, E|exact X]. Qed.
  Lemma go_expr prog i ps k ys ws s r : stands prog i ps -> Forall plain ps -> ready s r ->
    (forall x, In x ys -> In x xs) -> computes lev ps k ys r ws -> roomy s k ->
    exists s', goes prog (i, s) ((i + length ps)%nat, s') /\ moves s s' ws r.
  Proof. intros; repeat match goal with H : roomy _ _ |- _ => apply roomy_room in H end. edestruct (run_expr lev xs adr links base s0 P Even) as (s' & E & X); [eassumption..|]. exists s'. split; [apply goes_runs, E|exact X]. Qed.
End Step.

(** ** Single instructions, and which statement it is *)

Section Rec.
  Variables (procs : tok -> proc) (decls : list decl).
  Notation pstatement := (pstatement procs).
  Notation pstatements := (pstatements procs).
  Notation pcases := (pcases procs).
  Notation pany_statement := (pany_statement procs).
  Notation pmeans := (pmeans decls).
  Notation pmeans_seq := (pmeans_seq decls).
  Notation pmeans_cases := (pmeans_cases decls).

  Lemma pstatement_S n c : pstatement (S n) c = pany_statement n (pstatement n) (pstatements n) (pcases n) c.
  Proof. reflexivity. Qed.
  Lemma pstatements_S n c : pstatements (S n) c = binds (pstatement n (getToken c)) (fun c =>
      if token c =? tSEMICOLON then pstatements n c else SDone c).
  Proof. reflexivity. Qed.
  Lemma pcases_S n a b c : pcases (S n) a b c = one_case n (pstatement n) (pcases n) a b c.
  Proof. reflexivity. Qed.

  Lemma pany_other n stmt seq more T O E l L C B A : line_ok (hd eoftok T) -> tk (hd eoftok T) <> sPROC ->
    pany_statement n stmt seq more (mkComp T O E l L C B A) = any_statement n stmt seq more (mkComp T O E l L C B A).
  Proof.
    intros Ln N. unfold RecModel.pany_statement. rewrite c_line by exact Ln. rewrite c_token.
    replace (tk (hd eoftok T) =? sPROC) with false by lia. reflexivity.
  Qed.
  Section Dispatch.
    Variables (n : nat) (stmt seq : comp -> sres) (more : Z -> Z -> comp -> sres).
    Variables (a : tok) (T : list tok) (O : list opType) (E : list Z) (l L C B A : Z).
    Notation K := (mkComp (a :: T) O E l L C B A).
    Notation K' := (mkComp (a :: T) (O ++ [mkOp oLINE 0 (tline a)]) E l L C B A).
    Lemma pany_if : line_ok a -> tk a = tIF -> pany_statement n stmt seq more K = if_statement n stmt K'.
    Proof. intros Ln H. rewrite pany_other by (try exact Ln; cbn [hd]; rewrite H; discriminate). apply any_if; assumption. Qed.
    Lemma pany_case : line_ok a -> tk a = tCASE -> pany_statement n stmt seq more K = case_statement n more K'.
    Proof. intros Ln H. rewrite pany_other by (try exact Ln; cbn [hd]; rewrite H; discriminate). apply any_case; assumption. Qed.
    Lemma pany_repeat : line_ok a -> tk a = tREPEAT -> pany_statement n stmt seq more K = repeat_statement n seq K'.
    Proof. intros Ln H. rewrite pany_other by (try exact Ln; cbn [hd]; rewrite H; discriminate). apply any_repeat; assumption. Qed.
    Lemma pany_while : line_ok a -> tk a = tWHILE -> pany_statement n stmt seq more K = while_statement n stmt K'.
    Proof. intros Ln H. rewrite pany_other by (try exact Ln; cbn [hd]; rewrite H; discriminate). apply any_while; assumption. Qed.
    Lemma pany_for : line_ok a -> tk a = tFOR -> pany_statement n stmt seq more K = for_statement n stmt K'.
    Proof. intros Ln H. rewrite pany_other by (try exact Ln; cbn [hd]; rewrite H; discriminate). apply any_for; assumption. Qed.
    Lemma pany_begin : line_ok a -> tk a = tBEGIN -> pany_statement n stmt seq more K = binds (seq K') (fun c => SDone (expect tEND eEND c)).
    Proof. intros Ln H. rewrite pany_other by (try exact Ln; cbn [hd]; rewrite H; discriminate). apply any_begin; assumption. Qed.
    Lemma pany_std : line_ok a -> tk a = tSTDPROC -> pany_statement n stmt seq more K = standard_procedure K'.
    Proof. intros Ln H. rewrite pany_other by (try exact Ln; cbn [hd]; rewrite H; discriminate). apply any_std; assumption. Qed.
    Lemma pany_var x : line_ok a -> spells_var a x -> class_of (vty x) <> None ->
      pany_statement n stmt seq more K =
      if is32 (vty x) then large_assignment n (vty x) (tsym a) (getToken K') else assignment n (store_op (vty x)) (vty x) (tsym a) (getToken K').
    Proof.
      intros Ln H Cl. rewrite pany_other; [apply any_var; assumption|exact Ln|]. cbn [hd]. destruct H as (H & _ & _ & _ & U). rewrite H.
      destruct (vty x); try (elim U; cbn; tauto); discriminate.
    Qed.
    Lemma pany_proc : line_ok a -> tk a = sPROC -> pany_statement n stmt seq more K = of_ares (proc_statement n (procs a) K').
    Proof. intros Ln H. unfold RecModel.pany_statement. rewrite c_line by exact Ln. rewrite c_token. cbn [hd]. rewrite H, Z.eqb_refl. reflexivity. Qed.
  End Dispatch.
  Lemma pany_empty n stmt seq more T O E l L C B A : line_ok (hd eoftok T) -> follows T ->
    pany_statement n stmt seq more (mkComp T O E l L C B A) = SDone (mkComp T (O ++ [mkOp oLINE 0 (tline (hd eoftok T))]) E l L C B A).
  Proof.
    intros Ln F. rewrite pany_other; [apply any_empty; assumption|exact Ln|].
    unfold follows in F. cbn [In] in F. repeat (destruct F as [F|F]; [rewrite <- F; discriminate|]). destruct F.
  Qed.

  Variables (lev : Z) (xs : list var).
  Notation usable := (usable lev xs).
  Notation gpstmt := (gpstmt procs decls lev xs).
  Notation gpstmts := (gpstmts procs decls lev xs).
  Notation gpcases := (gpcases procs decls lev xs).

  (** The calls do what [K] says, with room for [N] words above the arguments. *)
  Definition able (K : callrel) (N : Z) (adr : var -> Z) (links : Z -> Prop) (base : Z) (s0 : st) (prog : list opType) : Prop :=
    forall q d, nth_error decls q = Some d -> visible lev xs d ->
    forall i s r l vs s1 r', stands prog i (call_op (d_proc d) :: release (slots (d_parms d))) ->
    ready xs adr links base s0 s r -> all_passed r (fun _ => 0) (d_parms d) l vs ->
    Forall2 (fun p v => class_of (ptype p) <> None /\ storable (ptype p) v = true) (d_parms d) vs ->
    roomy s 0 -> pushed s s1 (arg_words (d_parms d) vs) -> roomy s1 N -> K q r vs r' ->
    exists s', goes prog (i, s1) ((i + S (length (release (slots (d_parms d)))))%nat, s') /\ moves xs adr s s' [] r'.

  Definition poutcome (adr : var -> Z) (prog : list opType) (i e : nat) (C B A : Z) (s : st) (h : how) (r' : env) : Prop :=
    match h with
    | Normal => exists s', goes prog (i, s) (e, s') /\ moves xs adr s s' [] r'
    | Broke => forall j, labelled prog B j -> exists s', goes prog (i, s) (j, s') /\ effect xs adr s s' A r'
    | Continued => forall j, labelled prog C j -> exists s', goes prog (i, s) (j, s') /\ effect xs adr s s' A r'
    end.
  Definition psim (ps : list opType) (need : Z) (C B A : Z) (M : callrel -> env -> how -> env -> Prop) : Prop :=
    forall K N, 0 <= N -> forall adr links base s0, placed lev xs adr links base s0 -> c_ssz (cf s0) mod 2 = 0 ->
    forall prog, able K N adr links base s0 prog -> forall i, stands prog i ps -> forall s r h r',
    ready xs adr links base s0 s r -> base <= (sp s + A) / 2 -> roomy s (need + N) -> M K r h r' ->
    poutcome adr prog i (i + length ps) C B A s h r'.
  Definition ok_pstmt (o : bool) (ts : list tok) (st : pstmt) : Prop :=
    forall brk cont, wf_pstmt brk cont st -> (forall x, In x (pstmt_vars st) -> usable x) -> Forall line_ok ts ->
    forall rest, follows rest -> (o = true -> tk (hd eoftok rest) <> tELSE) -> line_ok (hd eoftok rest) ->
    forall O E l C B A, 0 <= l -> l + 2 * Z.of_nat (length ts) <= 65535 ->
    (brk = true -> 0 < B <= 65535) -> (cont = true -> 0 < C <= 65535) ->
    A <= 0 -> -32768 <= A - 2 * Z.of_nat (length ts) ->
    exists ps l' N, l <= l' <= l + 2 * Z.of_nat (length ts) /\
      (forall n, (N <= n)%nat -> pstatement n (mkComp (ts ++ rest) O E l lev C B A) = SDone (mkComp rest (O ++ ps) E l' lev C B A)) /\
      psim ps (2 * Z.of_nat (length ts)) C B A (fun K => pmeans K st).

  Definition ok_pstmts (ts : list tok) (ss : pstmts) : Prop :=
    forall brk cont, wf_pstmts brk cont ss -> (forall x, In x (pstmts_vars ss) -> usable x) -> Forall line_ok ts ->
    forall rest, In (tk (hd eoftok rest)) [tEND; tUNTIL] -> line_ok (hd eoftok rest) ->
    forall a O E l C B A, 0 <= l -> l + 2 * Z.of_nat (length ts) <= 65535 ->
    (brk = true -> 0 < B <= 65535) -> (cont = true -> 0 < C <= 65535) ->
    A <= 0 -> -32768 <= A - 2 * Z.of_nat (length ts) ->
    exists ps l' N, l <= l' <= l + 2 * Z.of_nat (length ts) /\
      (forall n, (N <= n)%nat -> pstatements n (mkComp (a :: ts ++ rest) O E l lev C B A) = SDone (mkComp rest (O ++ ps) E l' lev C B A)) /\
      psim ps (2 * Z.of_nat (length ts)) C B A (fun K => pmeans_seq K ss).

  (** The cases run with the selector [z] on the stack; behind them is the label
      [e]. *)
  Definition psim_cases (ps : list opType) (need : Z) (C B A e : Z) (T : etype) (M : callrel -> Z -> env -> how -> env -> Prop) : Prop :=
    forall K N, 0 <= N -> forall adr links base s0, placed lev xs adr links base s0 -> c_ssz (cf s0) mod 2 = 0 ->
    forall prog, able K N adr links base s0 prog -> forall i, stands prog i ps -> labelled prog e (i + length ps) -> forall s r z h r',
    ready xs adr links base s0 s r -> base <= (sp s + A) / 2 -> roomy s (need + N) -> 2 <= sp s -> tops s [z mod 65536] ->
    inr T z = true -> M K z r h r' ->
    poutcome adr prog i (i + length ps) C B A s h r'.
  Definition ok_pcases (ts : list tok) (cs : pcaselist) : Prop :=
    forall brk cont T, is32 T = false -> wf_pcases brk cont T cs -> (forall x, In x (pcases_vars cs) -> usable x) -> Forall line_ok ts ->
    forall rest this e O E l C B A, 0 <= this <= 65535 -> 0 <= e <= 65535 ->
    0 <= l -> l + 2 * Z.of_nat (length ts) <= 65535 ->
    (brk = true -> 0 < B <= 65535) -> (cont = true -> 0 < C <= 65535) ->
    A <= -2 -> -32768 <= A - 2 * Z.of_nat (length ts) ->
    exists ps l' N, l <= l' <= l + 2 * Z.of_nat (length ts) /\ hd_error ps = Some (mkOp oLABEL 0 this) /\
      (forall n, (N <= n)%nat -> pcases n this e (mkComp (ts ++ rest) O E l lev C B A) = SDone (mkComp rest (O ++ ps) E l' lev C B A)) /\
      psim_cases ps (2 * Z.of_nat (length ts)) C B A e T (fun K => pmeans_cases K cs).

  (** Expressions *)
  Definition pevaluates (pe : list opType) (ts : list tok) (ctx T : etype) (e : expr) : Prop :=
    forall adr links base s0, placed lev xs adr links base s0 -> c_ssz (cf s0) mod 2 = 0 ->
    forall prog i, stands prog i pe -> forall s r z, ready xs adr links base s0 s r -> roomy s (2 * Z.of_nat (length ts)) ->
    evalue r ctx e = Some z ->
    inr T z = true /\ exists s', goes prog (i, s) ((i + length pe)%nat, s') /\ moves xs adr s s' (words T z) r.
  Lemma pok_expr ts e ctx T : gexpr ts e -> etype_of ctx e = Some T -> (forall x, In x (evars e) -> usable x) ->
    exists ps N, Forall plain ps /\
      (forall n rest O E l C B A, (N <= n)%nat -> ended rest ->
         expression n ctx (mkComp (ts ++ rest) O E l lev C B A) = Done T (mkComp rest (O ++ ps) E l lev C B A)) /\
      pevaluates ps ts ctx T e.
  Proof.
    intros G Y U. destruct (grammar_sound lev) as (_ & _ & _ & H).
    destruct (H ts e G ctx T Y) as (ps & N & P & Cd); [intros x Hx; apply (U x Hx)|].
    assert (Pl : Forall plain ps).
    { assert (En : ended []) by (intros Q; cbn in Q; intuition discriminate).
      pose proof (P (mkComp (ts ++ []) [] [] 0 lev 0 0 0) [] N eq_refl En eq_refl ltac:(lia)) as X.
      apply (code_plain _ _ _ _ _ ps X). reflexivity. }
    exists ps, N. split; [exact Pl|]. split.
    - intros n rest O E l C B A Hn En. rewrite (P (mkComp (ts ++ rest) O E l lev C B A) rest n eq_refl En eq_refl Hn). reflexivity.
    - intros adr links base s0 Pc Ev prog i St s r z Rd Rm0 V. pose proof (roomy_room _ _ Rm0) as Rm. destruct (Cd r z V) as (Iz & Cp). split; [exact Iz|].
      apply (go_expr lev xs adr links base s0 Pc Ev prog i ps (need ts) (evars e) (words T z) s r St Pl Rd); auto.
      intros x Hx. apply (U x Hx).
  Qed.

  Section Outcome.
    Variables (adr : var -> Z) (links : Z -> Prop) (base : Z) (s0 : st).
    Hypothesis P : placed lev xs adr links base s0.
    Notation ready := (ready xs adr links base s0).
    Notation moves := (moves xs adr).
    Lemma poutcome_pre prog i i1 e C B A s s1 r r1 h r' : ready s r -> goes prog (i, s) (i1, s1) -> moves s s1 [] r1 -> A <= 0 ->
      poutcome adr prog i1 e C B A s1 h r' -> poutcome adr prog i e C B A s h r'.
    Proof.
      intros Rd E M HA. unfold poutcome. destruct h.
      - intros (s' & E' & M'). exists s'. split; [apply (goes_trans _ _ _ _ E E')|].
        apply (moves_again lev xs adr links base s0 P s s1 [] r r1 r' s' Rd M M').
      - intros H j J. destruct (H j J) as (s' & E' & M'). exists s'. split; [apply (goes_trans _ _ _ _ E E')|].
        replace A with (2 * Z.of_nat (length (@nil Z)) + A) by (cbn; lia).
        apply (effect_after xs adr links base s0 s s1 [] r r1 s' A r' Rd M M'). cbn. lia.
      - intros H j J. destruct (H j J) as (s' & E' & M'). exists s'. split; [apply (goes_trans _ _ _ _ E E')|].
        replace A with (2 * Z.of_nat (length (@nil Z)) + A) by (cbn; lia).
        apply (effect_after xs adr links base s0 s s1 [] r r1 s' A r' Rd M M'). cbn. lia.
    Qed.
    Lemma poutcome_post prog i e e2 C B A s h r' : poutcome adr prog i e C B A s h r' ->
      (forall s1, moves s s1 [] r' -> exists s2, goes prog (e, s1) (e2, s2) /\ moves s s2 [] r') ->
      poutcome adr prog i e2 C B A s h r'.
    Proof.
      unfold poutcome. intros H K. destruct h; [|exact H|exact H].
      destruct H as (s1 & E1 & M1). destruct (K s1 M1) as (s2 & E2 & M2). exists s2. split; [apply (goes_trans _ _ _ _ E1 E2)|exact M2].
    Qed.
    Lemma poutcome_pseudo prog i e e2 C B A s h r' p : poutcome adr prog i e C B A s h r' -> nth_error prog e = Some p -> is_pseudo p = true ->
      e2 = S e -> poutcome adr prog i e2 C B A s h r'.
    Proof.
      intros H N Ps ->. apply (poutcome_post _ _ _ _ _ _ _ _ _ _ H). intros s1 M. exists s1. split; [apply (go_pseudo _ _ _ _ N Ps)|exact M].
    Qed.
  End Outcome.

  Lemma roomy_same s s1 r1 adr k : moves xs adr s s1 [] r1 -> roomy s k -> roomy s1 k.
  Proof. intros M R. pose proof (moves_roomy xs adr s s1 [] r1 k M R) as X. cbn [length] in X. replace (k - Z.of_nat 0) with k in X by lia. exact X. Qed.

  Lemma psim_empty p C B A k : is_pseudo p = true -> psim [p] k C B A (fun K => pmeans K PEmpty).
  Proof.
    intros Ps Kc Nw Nw0 adr links base s0 Pc Ev prog Ab i St s r h r' Rd Bs Rm (-> & ->). apply stands_cons in St. destruct St as (St & _).
    exists s. split; [cbn [length]; rewrite Nat.add_1_r; apply (go_pseudo _ _ _ _ St Ps)|apply (moves_refl xs adr links base s0 s r Rd)].
  Qed.

  Lemma pmain_empty : ok_pstmt false [] PEmpty.
  Proof.
    intros brk cont W U Ln rest F _ Lr O E l C B A Hl Hl2 HB HC HA HA2.
    exists [mkOp oLINE 0 (tline (hd eoftok rest))], l, 1%nat. split; [cbn; lia|]. split.
    - intros [|n] Hn; [lia|]. rewrite pstatement_S. apply pany_empty; assumption.
    - apply psim_empty. reflexivity.
  Qed.

  Lemma pmain_assign t a ts x e : spells_var t x -> tk a = tASSIGN -> gexpr ts e -> ok_pstmt false (t :: a :: ts) (PAssign x e).
  Proof.
    intros Sx Ha G brk cont (Te & Cl) U Ln rest F _ Lr O E l C B A Hl Hl2 HB HC HA HA2.
    destruct (pok_expr ts e (vty x) (vty x) G Te) as (pe & N & Pl & Pe & Re); [intros y Hy; apply U; right; exact Hy|].
    destruct (U x (or_introl eq_refl)) as (Ux & Ua). inversion Ln as [|? ? L1 L2]; subst. 
    exists (mkOp oLINE 0 (tline t) :: pe ++ store_code lev x), l, (S N). split; [cbn [length]; lia|]. split.
    - intros [|n] Hn; [lia|]. rewrite pstatement_S. cbn [app]. rewrite (pany_var n _ _ _ t _ _ _ _ _ _ _ _ x L1 Sx Cl).
      destruct Sx as (Sx1 & Sx2 & Sx3 & Sx4 & Sx5). unfold store_code. destruct (is32 (vty x)) eqn:L32.
      + unfold large_assignment. rewrite c_get, (c_expect _ _ a _ _ _ _ _ _ _ _ Ha), Pe by (lia || apply follows_ended, F). cbn [binde].
        rewrite emit_push, Sx4 by (rewrite Sx4; destruct (vty x); try discriminate L32; cbn; lia).
        unfold append; cbn [toks out errs g_label g_level g_continue g_break g_adjust].
        rewrite (c_ref _ _ _ _ _ _ _ _ oSTSM _ x); [|cbn; tauto|exact Sx2|exact Sx3|exact Ua].
        destruct (vty x); try discriminate L32; flat.
      + unfold assignment. rewrite c_get, (c_expect _ _ a _ _ _ _ _ _ _ _ Ha), Pe by (lia || apply follows_ended, F). cbn [binde].
        rewrite (c_ref _ _ _ _ _ _ _ _ (store_op (vty x)) _ x); [|destruct (vty x); cbn; tauto|exact Sx2|exact Sx3|exact Ua]. flat.
    - intros Kc Nw Nw0 adr links base s0 Pc Ev prog Ab i St s r h r' Rd Bs Rm (z & V & Sz & -> & ->).
      apply stands_cons in St. destruct St as (St0 & St). apply stands_app in St. destruct St as (St1 & St2).
      destruct (Re adr links base s0 Pc Ev prog (S i) St1 s r z Rd) as (Iz & s1 & E1 & M1).
      { apply (roomy_mono _ _ _ Rm). cbn [length]. lia. }
      { exact V. }
      pose proof (moves_roomy xs adr s s1 (words (vty x) z) r _ M1 Rm) as Rm1.
      destruct (go_storing lev xs adr links base s0 Pc Ev prog _ x s s1 [] r r z St2 Rd M1) as (s2 & E2 & M2); auto.
      { apply (roomy_mono _ _ _ Rm1). unfold words. cbn [length]. destruct (is32 (vty x)); cbn [length]; lia. }
      exists s2. split; [|exact M2].
      apply (goes_trans _ _ _ _ (go_pseudo _ _ s _ St0 eq_refl)). apply (goes_trans _ _ _ _ E1).
      replace (i + length (mkOp oLINE 0 (tline t) :: pe ++ store_code lev x))%nat with (S i + length pe + length (store_code lev x))%nat
        by (cbn [length]; rewrite app_length; lia). exact E2.
  Qed.


  (** A condition and the jump over what depends on it *)
  Lemma go_cond ts e prog i pe l j adr links base s0 s r z k :
    placed lev xs adr links base s0 -> c_ssz (cf s0) mod 2 = 0 ->
    pevaluates pe ts xBoolean xBoolean e ->
    stands prog i (pe ++ [mkOp oJEQUZ 0 l]) -> (z = 0 -> labelled prog l j) ->
    ready xs adr links base s0 s r -> roomy s k -> 2 * Z.of_nat (length ts) < k -> evalue r xBoolean e = Some z ->
    exists s', goes prog (i, s) ((if z =? 0 then j else S (i + length pe)), s') /\ moves xs adr s s' [] r.
  Proof.
    intros Pc Ev Re St Lb Rd Rm Hk V. apply stands_app in St. destruct St as (St1 & St2). apply stands_cons in St2. destruct St2 as (St2 & _).
    destruct (Re adr links base s0 Pc Ev prog i St1 s r z Rd (roomy_mono s k (2 * Z.of_nat (length ts)) Rm ltac:(lia)) V) as (Iz & s1 & E1 & M1).
    change (words xBoolean z) with ([] ++ [z mod 65536]) in M1.
    pose proof (mod_zero xBoolean z eq_refl Iz) as Zz.
    pose proof (moves_roomy xs adr s s1 _ r _ M1 Rm) as Rm1. cbn [length app] in Rm1.
    destruct (go_equz lev xs adr links base s0 Pc Ev prog _ j l s s1 [] (z mod 65536) r r St2) as (s2 & E2 & M2); auto.
    { intros Hz. apply Lb. lia. }
    { apply (roomy_mono _ _ _ Rm1). lia. }
    exists s2. split; [|exact M2]. rewrite Zz in E2. apply (goes_trans _ _ _ _ E1 E2).
  Qed.

  Lemma pmain_if a ts e b us st o : tk a = tIF -> gexpr ts e -> tk b = tTHEN -> ok_pstmt o us st ->
    ok_pstmt true (a :: ts ++ b :: us) (PIf e st).
  Proof.
    intros Ha G Hb IH brk cont (Te & W) U Ln rest F Fe Lr O E l C B A Hl Hl2 HB HC HA HA2.
    destruct (pok_expr ts e xBoolean xBoolean G Te) as (pe & N & Pl & Pe & Re); [intros y Hy; apply U, in_or_app; auto|].
    inversion Ln as [|? ? La Ln1]; subst. apply Forall_app in Ln1. destruct Ln1 as (_ & Ln1). inversion Ln1 as [|? ? Lb Ln2]; subst.
    cbn [length] in Hl2, HA2. rewrite app_length in Hl2, HA2. cbn [length] in Hl2, HA2.
    destruct (IH brk cont W) with (rest := rest) (E := E) (l := l + 1) (C := C) (B := B) (A := A)
      (O := ((O ++ [mkOp oLINE 0 (tline a)]) ++ pe) ++ [mkOp oJEQUZ 0 (l + 1)])
      as (p1 & l1 & N1 & Hl1 & C1 & S1); auto; try lia.
    { intros y Hy. apply U, in_or_app. auto. }
    exists (mkOp oLINE 0 (tline a) :: pe ++ mkOp oJEQUZ 0 (l + 1) :: p1 ++ [mkOp oLABEL 0 (l + 1)]), l1, (S (N + N1)). split; [|split].
    - cbn [length]. rewrite app_length. cbn [length]. lia.
    - intros [|n] Hn; [lia|]. rewrite pstatement_S. cbn [app]. rewrite <- app_assoc. cbn [app]. rewrite pany_if by assumption.
      unfold if_statement. rewrite c_counted, c_new, c_get by lia.
      rewrite Pe by (try lia; apply (tok_ended _ _ tTHEN Hb); cbn; tauto). cbn [binde]. rewrite c_token. cbn [hd]. rewrite Hb, Z.eqb_refl. cbn [negb].
      rewrite c_get, c_jump by (cbn; try tauto; lia). rewrite C1 by lia. cbn [binds]. rewrite c_token.
      replace (tk (hd eoftok rest) =? tELSE) with false by (specialize (Fe eq_refl); lia).
      rewrite c_label by lia. flat.
    - intros Kc Nw Nw0 adr links base s0 Pc Ev prog Ab i St s r h r' Rd Bs Rm (z & V & M).
      apply stands_cons in St. destruct St as (St0 & St).
      replace (pe ++ mkOp oJEQUZ 0 (l + 1) :: p1 ++ [mkOp oLABEL 0 (l + 1)]) with ((pe ++ [mkOp oJEQUZ 0 (l + 1)]) ++ p1 ++ [mkOp oLABEL 0 (l + 1)]) in St by flat.
      apply stands_app in St. destruct St as (St1 & St). apply stands_app in St. destruct St as (St2 & St).
      apply stands_cons in St. destruct St as (St3 & _).
      rewrite app_length in St2, St3. cbn [length] in St2, St3.
      destruct (go_cond ts e prog (S i) pe (l + 1) _ adr links base s0 s r z _ Pc Ev Re St1 (fun _ => St3) Rd Rm) as (s1 & E1 & M1); [|exact V|].
      { cbn [length]. rewrite app_length. cbn [length]. lia. }
      pose proof (goes_trans _ _ _ _ (go_pseudo _ _ s _ St0 eq_refl) E1) as E2.
      apply (poutcome_pre adr links base s0 Pc prog i _ _ C B A s s1 r r h r' Rd E2 M1 HA).
      eapply poutcome_pseudo with (e := (S i + (length pe + 1) + length p1)%nat); [|exact St3|reflexivity|len].
      destruct (z =? 0) eqn:Z0.
      + destruct M as (-> & ->). exists s1. split; [apply goes_refl|]. apply (moves_refl xs adr links base s0).
        apply (moves_ready lev xs adr links base s0 Pc s s1 [] r r Rd M1).
      + replace (S (S i + length pe)) with (S i + (length pe + 1))%nat by lia.
        apply (S1 Kc Nw Nw0 adr links base s0 Pc Ev prog Ab _ St2 s1 r h r').
        * apply (moves_ready lev xs adr links base s0 Pc s s1 [] r r Rd M1).
        * destruct M1 as (_ & Q & _). cbn [length] in Q. replace (sp s1) with (sp s) by lia. exact Bs.
        * apply (roomy_same s s1 r adr _ M1). apply (roomy_mono _ _ _ Rm). cbn [length]. rewrite app_length. cbn [length]. lia.
        * exact M.
  Qed.

  Lemma pmain_ifelse a ts e b us st1 d vs st2 o : tk a = tIF -> gexpr ts e -> tk b = tTHEN -> ok_pstmt false us st1 ->
    tk d = tELSE -> ok_pstmt o vs st2 -> ok_pstmt o (a :: ts ++ b :: us ++ d :: vs) (PIfElse e st1 st2).
  Proof.
    intros Ha G Hb IH1 Hd IH2 brk cont (Te & W1 & W2) U Ln rest F Fe Lr O E l C B A Hl Hl2 HB HC HA HA2.
    destruct (pok_expr ts e xBoolean xBoolean G Te) as (pe & N & Pl & Pe & Re); [intros y Hy; apply U, in_or_app; auto|].
    inversion Ln as [|? ? La Ln1]; subst. apply Forall_app in Ln1. destruct Ln1 as (_ & Ln1). inversion Ln1 as [|? ? Lb Ln2]; subst.
    apply Forall_app in Ln2. destruct Ln2 as (Ln2 & Ln3). inversion Ln3 as [|? ? Ld Ln4]; subst.
    cbn [length] in Hl2, HA2. rewrite app_length in Hl2, HA2. cbn [length] in Hl2, HA2. rewrite app_length in Hl2, HA2. cbn [length] in Hl2, HA2.
    destruct (IH1 brk cont W1) with (rest := d :: vs ++ rest) (E := E) (l := l + 1) (C := C) (B := B) (A := A)
      (O := ((O ++ [mkOp oLINE 0 (tline a)]) ++ pe) ++ [mkOp oJEQUZ 0 (l + 1)])
      as (p1 & l1 & N1 & Hl1 & C1 & S1); auto; try lia; try discriminate.
    { intros y Hy. apply U, in_or_app. right. apply in_or_app. auto. }
    { unfold follows. cbn [hd]. rewrite Hd. cbn. tauto. }
    destruct (IH2 brk cont W2) with (rest := rest) (E := E) (l := l1 + 1) (C := C) (B := B) (A := A)
      (O := ((((((O ++ [mkOp oLINE 0 (tline a)]) ++ pe) ++ [mkOp oJEQUZ 0 (l + 1)]) ++ p1) ++ [mkOp oJMP 0 (l1 + 1)]) ++ [mkOp oLABEL 0 (l + 1)]))
      as (p2 & l2 & N2 & Hl3 & C2 & S2); auto; try lia.
    { intros y Hy. apply U, in_or_app. right. apply in_or_app. auto. }
    exists (mkOp oLINE 0 (tline a) :: pe ++ mkOp oJEQUZ 0 (l + 1) :: p1 ++ mkOp oJMP 0 (l1 + 1) :: mkOp oLABEL 0 (l + 1) :: p2 ++ [mkOp oLABEL 0 (l1 + 1)]), l2, (S (N + N1 + N2)). split; [|split].
    - len.
    - intros [|n] Hn; [lia|]. rewrite pstatement_S. cbn [app]. rewrite <- app_assoc. cbn [app]. rewrite <- app_assoc. cbn [app]. rewrite pany_if by assumption.
      unfold if_statement. rewrite c_counted, c_new, c_get by lia.
      rewrite Pe by (try lia; apply (tok_ended _ _ tTHEN Hb); cbn; tauto). cbn [binde]. rewrite c_token. cbn [hd]. rewrite Hb, Z.eqb_refl. cbn [negb].
      rewrite c_get, c_jump by (cbn; try tauto; lia). rewrite C1 by lia. cbn [binds]. rewrite c_token. cbn [hd]. rewrite Hd, Z.eqb_refl.
      rewrite c_counted, c_new, c_get, c_jump, c_label by (cbn; try tauto; lia). rewrite C2 by lia. cbn [binds]. rewrite c_label by lia. flat.
    - intros Kc Nw Nw0 adr links base s0 Pc Ev prog Ab i St s r h r' Rd Bs Rm (z & V & M).
      apply stands_cons in St. destruct St as (St0 & St).
      replace (pe ++ mkOp oJEQUZ 0 (l + 1) :: p1 ++ mkOp oJMP 0 (l1 + 1) :: mkOp oLABEL 0 (l + 1) :: p2 ++ [mkOp oLABEL 0 (l1 + 1)])
        with ((pe ++ [mkOp oJEQUZ 0 (l + 1)]) ++ p1 ++ mkOp oJMP 0 (l1 + 1) :: mkOp oLABEL 0 (l + 1) :: p2 ++ [mkOp oLABEL 0 (l1 + 1)]) in St by flat.
      apply stands_app in St. destruct St as (St1 & St). apply stands_app in St. destruct St as (St2 & St).
      apply stands_cons in St. destruct St as (St3 & St). apply stands_cons in St. destruct St as (St4 & St).
      apply stands_app in St. destruct St as (St5 & St). apply stands_cons in St. destruct St as (St6 & _).
      rewrite app_length in *. cbn [length] in St2, St3, St4, St5, St6.
      assert (Need : 2 * Z.of_nat (length (a :: ts ++ b :: us ++ d :: vs)) = 2 * (Z.of_nat (length ts) + Z.of_nat (length us) + Z.of_nat (length vs) + 3)).
      { cbn [length]. rewrite app_length. cbn [length]. rewrite app_length. cbn [length]. lia. }
      rewrite Need in Rm. clear Need.
      destruct (go_cond ts e prog (S i) pe (l + 1) _ adr links base s0 s r z _ Pc Ev Re St1 (fun _ => St4) Rd Rm) as (s1 & E1 & M1); [lia|exact V|].
      pose proof (goes_trans _ _ _ _ (go_pseudo _ _ s _ St0 eq_refl) E1) as E2.
      pose proof (moves_ready lev xs adr links base s0 Pc s s1 [] r r Rd M1) as Rd1.
      apply (poutcome_pre adr links base s0 Pc prog i _ _ C B A s s1 r r h r' Rd E2 M1 HA).
      eapply poutcome_pseudo with (e := (S (S (S i + (length pe + 1) + length p1)) + length p2)%nat); [|exact St6|reflexivity|len].
      assert (Bs1 : base <= (sp s1 + A) / 2) by (destruct M1 as (_ & Q & _); cbn [length] in Q; replace (sp s1) with (sp s) by lia; exact Bs).
      pose proof (roomy_same s s1 r adr _ M1 Rm) as Rm1.
      destruct (z =? 0) eqn:Z0.
      + pose proof (go_pseudo _ _ s1 _ St4 eq_refl) as E3.
        apply (poutcome_pre adr links base s0 Pc prog _ _ _ C B A s1 s1 r r h r' Rd1 E3 (moves_refl xs adr links base s0 s1 r Rd1) HA).
        apply (S2 Kc Nw Nw0 adr links base s0 Pc Ev prog Ab _ St5 s1 r h r' Rd1 Bs1); [|exact M]. apply (roomy_mono _ _ _ Rm1). lia.
      + replace (S (S i + length pe)) with (S i + (length pe + 1))%nat by lia.
        assert (Q : poutcome adr prog (S i + (length pe + 1)) (S i + (length pe + 1) + length p1) C B A s1 h r').
        { apply (S1 Kc Nw Nw0 adr links base s0 Pc Ev prog Ab _ St2 s1 r h r' Rd1 Bs1); [|exact M]. apply (roomy_mono _ _ _ Rm1). lia. }
        apply (poutcome_post _ _ _ _ _ _ _ _ _ _ _ Q). intros s2 M2.
        apply (go_jmp lev xs adr links base s0 Pc Ev prog _ _ _ s1 s2 [] r r' St3 St6 Rd1 M2).
  Qed.

  Lemma pmain_block a us ss b : tk a = tBEGIN -> ok_pstmts us ss -> tk b = tEND -> ok_pstmt false (a :: us ++ [b]) (PBlock ss).
  Proof.
    intros Ha IH Hb brk cont W U Ln rest F Fe Lr O E l C B A Hl Hl2 HB HC HA HA2.
    inversion Ln as [|? ? La Ln1]; subst. apply Forall_app in Ln1. destruct Ln1 as (Ln1 & Ln2). inversion Ln2 as [|? ? Lb _]; subst.
    cbn [length] in Hl2, HA2. rewrite app_length in Hl2, HA2. cbn [length] in Hl2, HA2.
    destruct (IH brk cont W) with (rest := b :: rest) (a := a) (E := E) (l := l) (C := C) (B := B) (A := A) (O := (O ++ [mkOp oLINE 0 (tline a)]))
      as (p1 & l1 & N1 & Hl1 & C1 & S1); auto; try lia.
    { cbn [hd]. rewrite Hb. cbn. tauto. }
    exists (mkOp oLINE 0 (tline a) :: p1), l1, (S N1). split; [|split].
    - len.
    - intros [|n] Hn; [lia|]. rewrite pstatement_S. cbn [app]. rewrite <- app_assoc. cbn [app]. rewrite pany_begin by assumption.
      rewrite C1 by lia. cbn [binds]. rewrite c_expect by exact Hb. flat.
    - intros Kc Nw Nw0 adr links base s0 Pc Ev prog Ab i St s r h r' Rd Bs Rm M.
      apply stands_cons in St. destruct St as (St0 & St).
      apply (poutcome_pre adr links base s0 Pc prog i (S i) _ C B A s s r r h r' Rd (go_pseudo _ _ s _ St0 eq_refl) (moves_refl xs adr links base s0 s r Rd) HA).
      replace (i + length (mkOp oLINE 0 (tline a) :: p1))%nat with (S i + length p1)%nat by (cbn [length]; lia).
      apply (S1 Kc Nw Nw0 adr links base s0 Pc Ev prog Ab (S i) St s r h r' Rd Bs); [|exact M]. apply (roomy_mono _ _ _ Rm). len.
  Qed.

  Lemma psim_leave (h0 : how) p label A B C : is_pseudo p = true -> -32768 <= A <= 0 ->
    match h0 with Normal => False | Broke => label = B | Continued => label = C end ->
    psim (p :: adjust_code A ++ [mkOp oJMP 0 label]) 0 C B A (fun K r h r' => h = h0 /\ r' = r).
  Proof.
    intros Ps HA Hl Kc Nw Nw0 adr links base s0 Pc Ev prog Ab i St s r h r' Rd Bs Rm (-> & ->). apply stands_cons in St. destruct St as (St0 & St).
    pose proof (go_pseudo _ _ s _ St0 Ps) as E0.
    destruct h0; [destruct Hl| |]; subst label; intros j J;
      (edestruct (go_leave lev xs adr links base s0 Pc Ev prog) as (s' & E1 & X1); [exact St|exact J|exact Rd|exact (roomy_mono _ _ 0 Rm ltac:(lia))|exact HA|exact Bs|]);
      exists s'; (split; [apply (goes_trans _ _ _ _ E0 E1)|exact X1]).
  Qed.
  Lemma psim_weaken ps k k' C B A M : psim ps k C B A M -> k <= k' -> psim ps k' C B A M.
  Proof.
    intros H L Kc Nw Nw0 adr links base s0 Pc Ev prog Ab i St s r h r' Rd Bs Rm M'.
    apply (H Kc Nw Nw0 adr links base s0 Pc Ev prog Ab i St s r h r' Rd Bs); [|exact M']. apply (roomy_mono _ _ _ Rm). lia.
  Qed.

  Lemma pmain_break t : tk t = tSTDPROC -> tsub t = txBREAK -> ok_pstmt false [t] PBreak.
  Proof.
    intros Ht Hs brk cont W U Ln rest F Fe Lr O E l C B A Hl Hl2 HB HC HA HA2. cbn [wf_pstmt] in W. specialize (HB W).
    inversion Ln as [|? ? La _]; subst. cbn [length] in HA2.
    exists (mkOp oLINE 0 (tline t) :: adjust_code A ++ [mkOp oJMP 0 B]), l, 1%nat. split; [|split].
    - len.
    - intros [|n] Hn; [lia|]. rewrite pstatement_S. cbn [app]. rewrite pany_std by assumption. unfold standard_procedure. rewrite c_token. unfold cur. cbn [hd toks].
      rewrite Ht, Z.eqb_refl, Hs, Z.eqb_refl, c_get. cbn [g_break]. rewrite c_leave by lia. flat.
    - apply (psim_weaken _ 0); [|len]. apply (psim_leave Broke); [reflexivity|lia|reflexivity].
  Qed.
  Lemma pmain_continue t : tk t = tSTDPROC -> tsub t = txCONTINUE -> ok_pstmt false [t] PContinue.
  Proof.
    intros Ht Hs brk cont W U Ln rest F Fe Lr O E l C B A Hl Hl2 HB HC HA HA2. cbn [wf_pstmt] in W. specialize (HC W).
    inversion Ln as [|? ? La _]; subst. cbn [length] in HA2.
    exists (mkOp oLINE 0 (tline t) :: adjust_code A ++ [mkOp oJMP 0 C]), l, 1%nat. split; [|split].
    - len.
    - intros [|n] Hn; [lia|]. rewrite pstatement_S. cbn [app]. rewrite pany_std by assumption. unfold standard_procedure. rewrite c_token. unfold cur. cbn [hd toks].
      rewrite Ht, Z.eqb_refl, Hs. change (txCONTINUE =? txBREAK) with false. rewrite Z.eqb_refl, c_get. cbn [g_continue]. rewrite c_leave by lia. flat.
    - apply (psim_weaken _ 0); [|len]. apply (psim_leave Continued); [reflexivity|lia|reflexivity].
  Qed.

  Lemma pmain_one o ts st : ok_pstmt o ts st -> ok_pstmts ts (POne st).
  Proof.
    intros IH brk cont W U Ln rest F Lr a O E l C B A Hl Hl2 HB HC HA HA2.
    destruct (ends_follow rest F) as (F1 & F2 & F3).
    destruct (IH brk cont W) with (rest := rest) (E := E) (l := l) (C := C) (B := B) (A := A) (O := O)
      as (p1 & l1 & N1 & Hl1 & C1 & S1); auto; try lia.
    exists p1, l1, (S N1). split; [exact Hl1|]. split; [|exact S1].
    intros [|n] Hn; [lia|]. rewrite pstatements_S, c_get, C1 by lia. cbn [binds]. rewrite c_token, F3. reflexivity.
  Qed.

  Lemma pmain_more o ts st a us ss : ok_pstmt o ts st -> tk a = tSEMICOLON -> ok_pstmts us ss -> ok_pstmts (ts ++ a :: us) (PMore st ss).
  Proof.
    intros IH1 Ha IH2 brk cont (W1 & W2) U Ln rest F Lr a' O E l C B A Hl Hl2 HB HC HA HA2.
    apply Forall_app in Ln. destruct Ln as (Ln1 & Ln2). inversion Ln2 as [|? ? La Ln3]; subst.
    rewrite app_length in Hl2, HA2. cbn [length] in Hl2, HA2.
    destruct (IH1 brk cont W1) with (rest := a :: us ++ rest) (E := E) (l := l) (C := C) (B := B) (A := A) (O := O)
      as (p1 & l1 & N1 & Hl1 & C1 & S1); auto; try lia.
    { intros y Hy. apply U, in_or_app. auto. }
    { unfold follows. cbn [hd]. rewrite Ha. cbn. tauto. }
    { cbn [hd]. rewrite Ha. discriminate. }
    destruct (IH2 brk cont W2) with (rest := rest) (a := a) (E := E) (l := l1) (C := C) (B := B) (A := A) (O := O ++ p1)
      as (p2 & l2 & N2 & Hl3 & C2 & S2); auto; try lia.
    { intros y Hy. apply U, in_or_app. auto. }
    exists (p1 ++ p2), l2, (S (N1 + N2)). split; [|split].
    - len.
    - intros [|n] Hn; [lia|]. rewrite pstatements_S, c_get, <- app_assoc. cbn [app]. rewrite C1 by lia. cbn [binds]. rewrite c_token. cbn [hd]. rewrite Ha, Z.eqb_refl.
      rewrite C2 by lia. flat.
    - intros Kc Nw Nw0 adr links base s0 Pc Ev prog Ab i St s r h r' Rd Bs Rm (h1 & r1 & M1 & M2).
      apply stands_app in St. destruct St as (St1 & St2).
      assert (Rm' : roomy s (2 * Z.of_nat (length ts) + 2 * Z.of_nat (length us) + Nw)) by (apply (roomy_mono _ _ _ Rm); len).
      assert (Q : poutcome adr prog i (i + length p1) C B A s h1 r1).
      { apply (S1 Kc Nw Nw0 adr links base s0 Pc Ev prog Ab i St1 s r h1 r1 Rd Bs); [|exact M1]. apply (roomy_mono _ _ _ Rm'). lia. }
      destruct h1.
      + destruct Q as (s1 & E1 & X1).
        apply (poutcome_pre adr links base s0 Pc prog i _ _ C B A s s1 r r1 h r' Rd E1 X1 HA).
        rewrite app_length, Nat.add_assoc. apply (S2 Kc Nw Nw0 adr links base s0 Pc Ev prog Ab _ St2 s1 r1 h r').
        * apply (moves_ready lev xs adr links base s0 Pc s s1 [] r r1 Rd X1).
        * destruct X1 as (_ & Q & _). cbn [length] in Q. replace (sp s1) with (sp s) by lia. exact Bs.
        * apply (roomy_same s s1 r1 adr _ X1). apply (roomy_mono _ _ _ Rm'). lia.
        * exact M2.
      + destruct M2 as (-> & ->). exact Q.
      + destruct M2 as (-> & ->). exact Q.
  Qed.
  Lemma psim_while line pe p1 lw le ts e k1 k M :
    pevaluates pe ts xBoolean xBoolean e -> psim p1 k1 lw le 0 M -> k1 <= k -> 2 * Z.of_nat (length ts) < k ->
    forall C B A, psim (mkOp oLINE 0 line :: mkOp oLABEL 0 lw :: pe ++ mkOp oJEQUZ 0 le :: p1 ++ [mkOp oJMP 0 lw; mkOp oLABEL 0 le]) k C B A
      (fun K r h r' => h = Normal /\ while_loop (fun r => evalue r xBoolean e) (M K) r r').
  Proof.
    intros Re S1 K1 K2 C B A Kc Nw Nw0 adr links base s0 Pc Ev prog Ab i St s r h r' Rd Bs Rm (-> & Lp).
    apply stands_cons in St. destruct St as (St0 & St). apply stands_cons in St. destruct St as (StW & St).
    replace (pe ++ mkOp oJEQUZ 0 le :: p1 ++ [mkOp oJMP 0 lw; mkOp oLABEL 0 le])
      with ((pe ++ [mkOp oJEQUZ 0 le]) ++ p1 ++ [mkOp oJMP 0 lw; mkOp oLABEL 0 le]) in St by flat.
    apply stands_app in St. destruct St as (St1 & St). apply stands_app in St. destruct St as (St2 & St).
    apply stands_cons in St. destruct St as (St3 & St). apply stands_cons in St. destruct St as (StE & _).
    rewrite app_length in *. cbn [length] in *.
    set (iw := S i) in *. set (ie := S (S iw + (length pe + 1) + length p1)) in *.
    assert (Loop : forall r r', while_loop (fun r => evalue r xBoolean e) (M Kc) r r' ->
      forall s, ready xs adr links base s0 s r -> roomy s (k + Nw) -> exists s', goes prog (iw, s) (ie, s') /\ moves xs adr s s' [] r').
    { clear s r r' Rd Bs Rm Lp.
      assert (Cond : forall r z s, evalue r xBoolean e = Some z -> ready xs adr links base s0 s r -> roomy s (k + Nw) ->
        exists s', goes prog (iw, s) ((if (z =? 0)%Z then ie else (S iw + (length pe + 1)))%nat, s') /\ moves xs adr s s' [] r).
      { intros r z s V Rd Rm.
        destruct (go_cond ts e prog (S iw) pe le ie adr links base s0 s r z (k + Nw) Pc Ev Re St1 (fun _ => StE) Rd Rm ltac:(lia) V) as (s1 & E1 & M1).
        exists s1. split; [|exact M1]. replace (S iw + (length pe + 1))%nat with (S (S iw + length pe)) by lia.
        apply (goes_trans _ _ _ _ (go_pseudo _ _ s _ StW eq_refl) E1). }
      assert (Body : forall r z s h r1, evalue r xBoolean e = Some z -> z <> 0 -> M Kc r h r1 -> ready xs adr links base s0 s r -> roomy s (k + Nw) ->
        exists s', goes prog (iw, s) (match h with Broke => ie | _ => iw end, s') /\ moves xs adr s s' [] r1).
      { intros r z s h r1 V Nz Mb Rd Rm. destruct (Cond r z s V Rd Rm) as (s1 & E1 & M1). replace (z =? 0) with false in E1 by lia.
        pose proof (moves_ready lev xs adr links base s0 Pc s s1 [] r r Rd M1) as Rd1.
        assert (Q : poutcome adr prog (S iw + (length pe + 1)) (S iw + (length pe + 1) + length p1) lw le 0 s1 h r1).
        { apply (S1 Kc Nw Nw0 adr links base s0 Pc Ev prog Ab _ St2 s1 r h r1 Rd1); [|exact (roomy_mono _ _ (k1 + Nw) (roomy_same s s1 r adr _ M1 Rm) ltac:(lia))|exact Mb].
          rewrite Z.add_0_r. apply Rd1. }
        assert (Q2 : exists s2, goes prog (S iw + (length pe + 1), s1)%nat (match h with Broke => ie | _ => iw end, s2) /\ moves xs adr s1 s2 [] r1).
        { destruct h; cbn [poutcome] in Q.
          - destruct Q as (s2 & E2 & M2). destruct (go_jmp lev xs adr links base s0 Pc Ev prog _ iw lw s1 s2 [] r r1 St3 StW Rd1 M2) as (s3 & E3 & M3).
            exists s3. split; [apply (goes_trans _ _ _ _ E2 E3)|exact M3].
          - destruct (Q ie StE) as (s2 & E2 & X2). exists s2. split; [exact E2|apply effect_0, X2].
          - destruct (Q iw StW) as (s2 & E2 & X2). exists s2. split; [exact E2|apply effect_0, X2]. }
        destruct Q2 as (s2 & E2 & M2). exists s2. split; [apply (goes_trans _ _ _ _ E1 E2)|].
        apply (moves_again lev xs adr links base s0 Pc s s1 [] r r r1 s2 Rd M1 M2). }
      induction 1 as [r V|r z h r1 r2 V Nz Mb Nb Lp IH|r z r1 V Nz Mb]; intros s Rd Rm.
      - destruct (Cond r 0 s V Rd Rm) as (s1 & E1 & M1). exists s1. auto.
      - destruct (Body r z s h r1 V Nz Mb Rd Rm) as (s1 & E1 & M1).
        destruct (IH s1 (moves_ready lev xs adr links base s0 Pc s s1 [] r r1 Rd M1) (roomy_same s s1 r1 adr _ M1 Rm)) as (s2 & E2 & M2).
        exists s2. split; [|apply (moves_again lev xs adr links base s0 Pc s s1 [] r r1 r2 s2 Rd M1 M2)].
        destruct h; [|contradiction|]; apply (goes_trans _ _ _ _ E1 E2).
      - apply (Body r z s Broke r1 V Nz Mb Rd Rm). }
    destruct (Loop r r' Lp s Rd Rm) as (s1 & E1 & M1). exists s1. split; [|exact M1].
    apply (goes_trans _ _ _ _ (go_pseudo _ _ s _ St0 eq_refl)). fold iw. apply (goes_trans _ _ _ _ E1).
    replace (i + _)%nat with (S ie); [apply (go_pseudo _ _ s1 _ StE eq_refl)|]. unfold ie, iw. rewrite ?app_length. cbn [length]. rewrite ?app_length. cbn [length]. lia.
  Qed.

  Lemma pmain_while a ts e b us st o : tk a = tWHILE -> gexpr ts e -> tk b = tDO -> ok_pstmt o us st ->
    ok_pstmt o (a :: ts ++ b :: us) (PWhile e st).
  Proof.
    intros Ha G Hb IH brk cont (Te & W) U Ln rest F Fe Lr O E l C B A Hl Hl2 HB HC HA HA2.
    destruct (pok_expr ts e xBoolean xBoolean G Te) as (pe & N & Pl & Pe & Re); [intros y Hy; apply U, in_or_app; auto|].
    inversion Ln as [|? ? La Ln1]; subst. apply Forall_app in Ln1. destruct Ln1 as (_ & Ln1). inversion Ln1 as [|? ? Lb Ln2]; subst.
    cbn [length] in Hl2, HA2. rewrite app_length in Hl2, HA2. cbn [length] in Hl2, HA2.
    destruct (IH true true W) with (rest := rest) (E := E) (l := l + 1 + 1) (C := l + 1) (B := l + 1 + 1) (A := 0)
      (O := (((O ++ [mkOp oLINE 0 (tline a)]) ++ [mkOp oLABEL 0 (l + 1)]) ++ pe) ++ [mkOp oJEQUZ 0 (l + 1 + 1)])
      as (p1 & l1 & N1 & Hl1 & C1 & S1); auto; try lia.
    { intros y Hy. apply U, in_or_app. auto. }
    exists (mkOp oLINE 0 (tline a) :: mkOp oLABEL 0 (l + 1) :: pe ++ mkOp oJEQUZ 0 (l + 1 + 1) :: p1 ++ [mkOp oJMP 0 (l + 1); mkOp oLABEL 0 (l + 1 + 1)]), l1, (S (N + N1)). split; [|split].
    - len.
    - intros [|n] Hn; [lia|]. rewrite pstatement_S. cbn [app]. rewrite <- app_assoc. cbn [app]. rewrite pany_while by assumption.
      unfold while_statement. rewrite c_counted, c_new by lia. rewrite c_counted, c_new by lia. cbn [g_continue g_break g_adjust].
      rewrite c_loop, c_get, c_label by lia.
      rewrite Pe by (try lia; apply (tok_ended _ _ tDO Hb); cbn; tauto). cbn [binde].
      rewrite c_jump, (c_expect tDO) by (try exact Hb; cbn; try tauto; lia). rewrite C1 by lia. cbn [binds].
      rewrite c_jump, c_label, c_loop by (cbn; try tauto; lia). flat.
    - apply (psim_while (tline a) pe p1 (l + 1) (l + 1 + 1) ts e _ _ (fun K => pmeans K st) Re S1); len.
  Qed.

  Lemma psim_repeat line p1 pe lr le ts e k1 k M :
    pevaluates pe ts xBoolean xBoolean e -> psim p1 k1 lr le 0 M -> (forall K r r', ~ M K r Continued r') -> k1 <= k -> 2 * Z.of_nat (length ts) < k ->
    forall C B A, psim (mkOp oLINE 0 line :: mkOp oLABEL 0 lr :: p1 ++ pe ++ [mkOp oJEQUZ 0 lr; mkOp oLABEL 0 le]) k C B A
      (fun K r h r' => h = Normal /\ repeat_loop (fun r => evalue r xBoolean e) (M K) r r').
  Proof.
    intros Re S1 NC K1 K2 C B A Kc Nw Nw0 adr links base s0 Pc Ev prog Ab i St s r h r' Rd Bs Rm (-> & Lp).
    apply stands_cons in St. destruct St as (St0 & St). apply stands_cons in St. destruct St as (StW & St).
    apply stands_app in St. destruct St as (St1 & St).
    replace (pe ++ [mkOp oJEQUZ 0 lr; mkOp oLABEL 0 le]) with ((pe ++ [mkOp oJEQUZ 0 lr]) ++ [mkOp oLABEL 0 le]) in St by flat.
    apply stands_app in St. destruct St as (St2 & St). apply stands_cons in St. destruct St as (StE & _).
    rewrite app_length in *. cbn [length] in *.
    set (iw := S i) in *. set (ie := (S iw + length p1 + (length pe + 1))%nat) in *.
    assert (Loop : forall r r', repeat_loop (fun r => evalue r xBoolean e) (M Kc) r r' ->
      forall s, ready xs adr links base s0 s r -> roomy s (k + Nw) -> exists s', goes prog (iw, s) (ie, s') /\ moves xs adr s s' [] r').
    { clear s r r' Rd Bs Rm Lp.
      assert (Out : forall r s h r1, M Kc r h r1 -> ready xs adr links base s0 s r -> roomy s (k + Nw) ->
        exists s', goes prog (iw, s) (match h with Broke => ie | _ => S iw + length p1 end, s')%nat /\ moves xs adr s s' [] r1).
      { intros r s h r1 Mb Rd Rm.
        assert (Q : poutcome adr prog (S iw) (S iw + length p1) lr le 0 s h r1).
        { apply (S1 Kc Nw Nw0 adr links base s0 Pc Ev prog Ab _ St1 s r h r1 Rd); [|exact (roomy_mono _ _ (k1 + Nw) Rm ltac:(lia))|exact Mb].
          rewrite Z.add_0_r. apply Rd. }
        pose proof (go_pseudo _ _ s _ StW eq_refl) as E0.
        destruct h; cbn [poutcome] in Q.
        - destruct Q as (s2 & E2 & M2). exists s2. split; [apply (goes_trans _ _ _ _ E0 E2)|exact M2].
        - destruct (Q ie StE) as (s2 & E2 & X2). exists s2. split; [apply (goes_trans _ _ _ _ E0 E2)|apply effect_0, X2].
        - elim (NC _ _ _ Mb). }
      assert (Body : forall r s h r1 z, M Kc r h r1 -> h <> Broke -> evalue r1 xBoolean e = Some z -> ready xs adr links base s0 s r -> roomy s (k + Nw) ->
        exists s', goes prog (iw, s) ((if (z =? 0)%Z then iw else ie), s') /\ moves xs adr s s' [] r1).
      { intros r s h r1 z Mb Nb V Rd Rm. destruct (Out r s h r1 Mb Rd Rm) as (s1 & E1 & M1).
        pose proof (moves_ready lev xs adr links base s0 Pc s s1 [] r r1 Rd M1) as Rd1.
        pose proof (roomy_same s s1 r1 adr _ M1 Rm) as Rm1.
        destruct (go_cond ts e prog (S iw + length p1) pe lr iw adr links base s0 s1 r1 z (k + Nw) Pc Ev Re St2 (fun _ => StW) Rd1 Rm1 ltac:(lia) V) as (s2 & E2 & M2).
        exists s2. split; [|apply (moves_again lev xs adr links base s0 Pc s s1 [] r r1 r1 s2 Rd M1 M2)].
        replace ie with (S (S iw + length p1 + length pe)) by (unfold ie; lia).
        destruct h; [|contradiction|]; apply (goes_trans _ _ _ _ E1 E2). }
      induction 1 as [r h r1 z Mb Nb V Nz|r h r1 r2 Mb Nb V Lp IH|r r1 Mb]; intros s Rd Rm.
      - destruct (Body r s h r1 z Mb Nb V Rd Rm) as (s1 & E1 & M1). replace (z =? 0) with false in E1 by lia. exists s1. auto.
      - destruct (Body r s h r1 0 Mb Nb V Rd Rm) as (s1 & E1 & M1). change (0 =? 0) with true in E1. cbv iota in E1.
        destruct (IH s1 (moves_ready lev xs adr links base s0 Pc s s1 [] r r1 Rd M1) (roomy_same s s1 r1 adr _ M1 Rm)) as (s2 & E2 & M2).
        exists s2. split; [|apply (moves_again lev xs adr links base s0 Pc s s1 [] r r1 r2 s2 Rd M1 M2)].
        apply (goes_trans _ _ _ _ E1 E2).
      - apply (Out r s Broke r1 Mb Rd Rm). }
    destruct (Loop r r' Lp s Rd Rm) as (s1 & E1 & M1). exists s1. split; [|exact M1].
    apply (goes_trans _ _ _ _ (go_pseudo _ _ s _ St0 eq_refl)). fold iw. apply (goes_trans _ _ _ _ E1).
    replace (i + _)%nat with (S ie); [apply (go_pseudo _ _ s1 _ StE eq_refl)|]. unfold ie, iw. rewrite ?app_length. cbn [length]. rewrite ?app_length. cbn [length]. lia.
  Qed.

  (** Statements that may not contain Continue do not end by it *)
  Lemma no_pcontinue K :
    (forall st brk r r', wf_pstmt brk false st -> ~ pmeans K st r Continued r') /\
    (forall ss brk r r', wf_pstmts brk false ss -> ~ pmeans_seq K ss r Continued r') /\
    (forall cs brk T z r r', wf_pcases brk false T cs -> ~ pmeans_cases K cs z r Continued r').
  Proof.
    apply pstmt_syntax_ind.
    - intros brk r r' _ (H & _). discriminate.
    - intros x e brk r r' _ (z & _ & _ & H & _). discriminate.
    - intros e s IH brk r r' (_ & W) (z & _ & H). destruct (z =? 0); [destruct H; discriminate|]. exact (IH brk r r' W H).
    - intros e s1 IH1 s2 IH2 brk r r' (_ & W1 & W2) (z & _ & H). destruct (z =? 0); [exact (IH2 brk r r' W2 H)|exact (IH1 brk r r' W1 H)].
    - intros e s IH brk r r' _ (H & _). discriminate.
    - intros ss IH e brk r r' _ (H & _). discriminate.
    - intros x d e1 e2 s IH brk r r' _ (H & _). discriminate.
    - intros e cs IH brk r r' (T & _ & _ & W) (z & _ & H). exact (IH brk T z r r' W H).
    - intros ss IH brk r r' W H. exact (IH brk r r' W H).
    - intros brk r r' _ (H & _). discriminate.
    - intros brk r r' H _. discriminate.
    - intros q es brk r r' _ (H & _). discriminate.
    - intros s IH brk r r' W H. exact (IH brk r r' W H).
    - intros s IH ss IHs brk r r' (W1 & W2) (h1 & r1 & H1 & H2). destruct h1.
      + exact (IHs brk r1 r' W2 H2).
      + destruct H2; discriminate.
      + exact (IH brk r r1 W1 H1).
    - intros brk T z r r' _ (H & _). discriminate.
    - intros ks s IH cs IHc brk T z r r' (_ & W1 & W2) H. cbn [RecSpec.pmeans_cases] in H. destruct (existsb (fun k => kval k =? z) ks).
      + exact (IH brk r r' W1 H).
      + exact (IHc brk T z r r' W2 H).
    - intros s IH brk T z r r' W H. exact (IH brk r r' W H).
  Qed.

  Lemma pmain_repeat a us ss b ts e : tk a = tREPEAT -> ok_pstmts us ss -> tk b = tUNTIL -> gexpr ts e ->
    ok_pstmt false (a :: us ++ b :: ts) (PRepeat ss e).
  Proof.
    intros Ha IH Hb G brk cont (W & Te) U Ln rest F Fe Lr O E l C B A Hl Hl2 HB HC HA HA2.
    destruct (pok_expr ts e xBoolean xBoolean G Te) as (pe & N & Pl & Pe & Re); [intros y Hy; apply U, in_or_app; auto|].
    inversion Ln as [|? ? La Ln1]; subst. apply Forall_app in Ln1. destruct Ln1 as (Ln1 & Ln2). inversion Ln2 as [|? ? Lb Ln3]; subst.
    cbn [length] in Hl2, HA2. rewrite app_length in Hl2, HA2. cbn [length] in Hl2, HA2.
    destruct (IH true false W) with (rest := b :: ts ++ rest) (a := a) (E := E) (l := l + 1 + 1) (C := l + 1) (B := l + 1 + 1) (A := 0)
      (O := (O ++ [mkOp oLINE 0 (tline a)]) ++ [mkOp oLABEL 0 (l + 1)])
      as (p1 & l1 & N1 & Hl1 & C1 & S1); auto; try lia.
    { intros y Hy. apply U, in_or_app. auto. }
    { cbn [hd]. rewrite Hb. cbn. tauto. }
    exists (mkOp oLINE 0 (tline a) :: mkOp oLABEL 0 (l + 1) :: p1 ++ pe ++ [mkOp oJEQUZ 0 (l + 1); mkOp oLABEL 0 (l + 1 + 1)]), l1, (S (N + N1)). split; [|split].
    - len.
    - intros [|n] Hn; [lia|]. rewrite pstatement_S. cbn [app]. rewrite <- app_assoc. cbn [app]. rewrite pany_repeat by assumption.
      unfold repeat_statement. rewrite c_counted, c_new by lia. rewrite c_counted, c_new by lia. cbn [g_continue g_break g_adjust].
      rewrite c_loop, c_label by lia. rewrite C1 by lia. cbn [binds]. rewrite (c_expect tUNTIL) by exact Hb.
      rewrite Pe by (try lia; apply follows_ended, F). cbn [binde].
      rewrite c_jump, c_label, c_loop by (cbn; try tauto; lia). flat.
    - apply (psim_repeat (tline a) p1 pe (l + 1) (l + 1 + 1) ts e _ _ (fun K => pmeans_seq K ss) Re S1); try len.
      intros K r r'. apply (proj1 (proj2 (no_pcontinue K)) ss true r r' W).
  Qed.

  Lemma psim_for line pe1 pe2 p1 lf le lc x (down : bool) ts us e1 e2 k1 k M :
    vty x = xInteger -> In x xs -> ~ In x (evars e2) ->
    pevaluates pe1 ts xInteger xInteger e1 -> pevaluates pe2 us xInteger xInteger e2 -> psim p1 k1 lc le 0 M ->
    k1 + 3 <= k -> 2 * Z.of_nat (length ts) + 2 <= k -> 2 * Z.of_nat (length us) + 2 <= k -> 5 <= k ->
    forall C B A, psim (mkOp oLINE 0 line :: pe1 ++ refer lev oSTS x :: pe2 ++ mkOp oLABEL 0 lf :: mkOp oDUP 0 0 :: refer lev oLDS x ::
        mkOp (if down then oJGT else oJLT) 0 le :: p1 ++
        [mkOp oLABEL 0 lc; refer lev oLDS x; mkOp (if down then oDEC else oINC) 0 0; refer lev oSTS x; mkOp oJMP 0 lf; mkOp oLABEL 0 le; mkOp oINDS 0 (-2 mod 65536)]) k C B A
      (fun K r h r' => h = Normal /\ exists z1 z2, evalue r xInteger e1 = Some z1 /\ evalue r xInteger e2 = Some z2 /\
        for_loop (M K) x down z2 (set r x z1) r').
  Proof.
    intros Tx Hx Nx Re1 Re2 S1 K1 K2 K3 K5 C B A Kc Nw Nw0 adr links base s0 Pc Ev prog Ab i St s r h r' Rd Bs Rm (-> & z1 & z2 & V1 & V2 & Lp).
    assert (Sc : store_code lev x = [refer lev oSTS x]) by (unfold store_code; rewrite Tx; reflexivity).
    apply stands_cons in St. destruct St as (St0 & St).
    apply stands_app in St. destruct St as (StA & St). apply stands_cons in St. destruct St as (StB & St).
    apply stands_app in St. destruct St as (StC & St). apply stands_cons in St. destruct St as (StF & St).
    apply stands_cons in St. destruct St as (StD & St). apply stands_cons in St. destruct St as (StL & St).
    apply stands_cons in St. destruct St as (StJ & St). apply stands_app in St. destruct St as (StP & St).
    apply stands_cons in St. destruct St as (St1 & St). apply stands_cons in St. destruct St as (St2 & St).
    apply stands_cons in St. destruct St as (St3 & St). apply stands_cons in St. destruct St as (St4 & St).
    apply stands_cons in St. destruct St as (St5 & St). apply stands_cons in St. destruct St as (StE & St).
    apply stands_cons in St. destruct St as (St6 & _).
    set (jf := (S (S i + length pe1) + length pe2)%nat) in *.
    set (jc := (S (S (S (S jf))) + length p1)%nat) in *.
    set (je := S (S (S (S (S jc))))) in *.
    (* first value *)
    destruct (Re1 adr links base s0 Pc Ev prog (S i) StA s r z1 Rd (roomy_mono _ _ (2 * Z.of_nat (length ts)) Rm ltac:(lia)) V1) as (I1 & sa & Ea & Ma).
    destruct (go_storing lev xs adr links base s0 Pc Ev prog (S i + length pe1) x s sa [] r r z1) as (sb & Eb & Mb); auto.
    { rewrite Sc. apply stands_1. exact StB. }
    { rewrite Tx. exact Ma. }
    { pose proof (moves_roomy xs adr s sa _ r (k + Nw) Ma Rm) as X. apply (roomy_mono _ _ _ X). change (length (words xInteger z1)) with 1%nat. lia. }
    { rewrite Tx. discriminate. }
    { rewrite Tx. exact I1. }
    rewrite Sc in Eb. cbn [length] in Eb. rewrite Nat.add_1_r in Eb.
    pose proof (moves_ready lev xs adr links base s0 Pc s sb [] r _ Rd Mb) as Rdb.
    pose proof (roomy_same s sb _ adr (k + Nw) Mb Rm) as Rmb.
    (* final value *)
    assert (V2' : evalue (set r x z1) xInteger e2 = Some z2).
    { rewrite <- V2. apply (value_ext (set r x z1) r). intros y Hy. apply set_other. intros ->. contradiction. }
    destruct (Re2 adr links base s0 Pc Ev prog _ StC sb _ z2 Rdb (roomy_mono _ _ (2 * Z.of_nat (length us)) Rmb ltac:(lia)) V2') as (I2 & sc & Ec & Mc).
    change (words xInteger z2) with ([] ++ [z2 mod 65536]) in Mc.
    pose proof (moves_trans lev xs adr links base s0 Pc s sb sc [] _ r _ _ Rd Mb Mc) as Md. cbn [app] in Md. fold jf in Ec.
    (* the loop *)
    set (w := z2 mod 65536) in *.
    assert (Loop : forall q q', for_loop (M Kc) x down z2 q q' -> inr xInteger (q x) = true ->
      forall t, moves xs adr s t [w] q -> exists t', goes prog (jf, t) (je, t') /\ moves xs adr s t' [w] q').
    { assert (Test : forall q t, inr xInteger (q x) = true -> moves xs adr s t [w] q ->
        exists t', goes prog (jf, t) ((if (if down then (q x <? z2)%Z else (z2 <? q x)%Z) then je else S (S (S (S jf)))), t') /\ moves xs adr s t' [w] q).
      { intros q t Iq Mt. pose proof (moves_roomy xs adr s t _ q (k + Nw) Mt Rm) as Rt. cbn [length] in Rt.
        change [w] with ([] ++ [w]) in Mt.
        destruct (go_insn lev xs adr links base s0 Pc Ev prog (S jf) (mkOp oDUP 0 0) 1 s t [] [w] [w; w] r q StD eq_refl (rw_dup w) Rd Mt
          (roomy_mono _ _ 1 Rt ltac:(lia))) as (t1 & E1 & M1). cbn [app] in M1.
        pose proof (moves_roomy xs adr s t1 _ q (k + Nw) M1 Rm) as Rt1. cbn [length] in Rt1.
        destruct (go_load lev xs adr links base s0 Pc Ev prog (S (S jf)) x s t1 [w; w] r q StL Tx Hx Rd M1 (roomy_mono _ _ 1 Rt1 ltac:(lia))) as (t2 & E2 & M2).
        change ([w; w] ++ [q x mod 65536]) with ([w] ++ [w; q x mod 65536]) in M2.
        pose proof (moves_roomy xs adr s t2 _ q (k + Nw) M2 Rm) as Rt2. cbn [length app] in Rt2.
        edestruct (go_two lev xs adr links base s0 Pc Ev prog (S (S (S jf))) je (if down then oGT else oLT) (if down then oJGT else oJLT)) as (t3 & E3 & M3);
          [exact StJ| |exact (for_test down z2 (q x) I2 Iq)|intros _; exact StE|exact Rd|exact M2|apply (roomy_mono _ _ 0 Rt2); lia|].
        { destruct down; cbn; tauto. }
        exists t3. split; [|exact M3].
        apply (goes_trans _ _ _ _ (go_pseudo _ _ t _ StF eq_refl)). apply (goes_trans _ _ _ _ E1). apply (goes_trans _ _ _ _ E2). exact E3. }
      assert (Body : forall q t h q1, inr xInteger (q x) = true -> ~ beyond x down z2 q -> M Kc q h q1 -> moves xs adr s t [w] q ->
        exists t', goes prog (jf, t) (match h with Broke => je | _ => jc end, t') /\ moves xs adr s t' [w] q1).
      { intros q t h q1 Iq Nb Mb' Mt. destruct (Test q t Iq Mt) as (t1 & E1 & M1).
        replace (if down then q x <? z2 else z2 <? q x) with false in E1 by (unfold beyond in Nb; destruct down; lia).
        pose proof (moves_ready lev xs adr links base s0 Pc s t1 [w] r q Rd M1) as Rd1.
        pose proof (moves_roomy xs adr s t1 _ q (k + Nw) M1 Rm) as Rt1. cbn [length] in Rt1.
        assert (Q : poutcome adr prog (S (S (S (S jf)))) jc lc le 0 t1 h q1).
        { apply (S1 Kc Nw Nw0 adr links base s0 Pc Ev prog Ab _ StP t1 q h q1 Rd1); [|apply (roomy_mono _ _ _ Rt1); lia|exact Mb'].
          rewrite Z.add_0_r. apply Rd1. }
        assert (Q2 : exists t2, goes prog (S (S (S (S jf))), t1) (match h with Broke => je | _ => jc end, t2) /\ moves xs adr t1 t2 [] q1).
        { destruct h; cbn [poutcome] in Q.
          - exact Q.
          - destruct (Q je StE) as (t2 & E2 & X2). exists t2. split; [exact E2|apply effect_0, X2].
          - destruct (Q jc St1) as (t2 & E2 & X2). exists t2. split; [exact E2|apply effect_0, X2]. }
        destruct Q2 as (t2 & E2 & M2). exists t2. split; [apply (goes_trans _ _ _ _ E1 E2)|].
        apply (moves_again lev xs adr links base s0 Pc s t1 [w] r q q1 t2 Rd M1 M2). }
      assert (Next : forall q t, moves xs adr s t [w] q -> inr xInteger (advanced x down q) = true ->
        exists t', goes prog (jc, t) (jf, t') /\ moves xs adr s t' [w] (set q x (advanced x down q))).
      { intros q t Mt Ia. pose proof (moves_roomy xs adr s t _ q (k + Nw) Mt Rm) as Rt. cbn [length] in Rt.
        destruct (go_load lev xs adr links base s0 Pc Ev prog (S jc) x s t [w] r q St2 Tx Hx Rd Mt (roomy_mono _ _ 1 Rt ltac:(lia))) as (t2 & E2 & M2).
        pose proof (moves_roomy xs adr s t2 _ q (k + Nw) M2 Rm) as Rt2. cbn [length app] in Rt2.
        edestruct (go_insn lev xs adr links base s0 Pc Ev prog (S (S jc))) as (t3 & E3 & M3);
          [exact St3| |exact (rw_advance down (q x))|exact Rd|exact M2|apply (roomy_mono _ _ 0 Rt2); lia|].
        { destruct down; reflexivity. }
        pose proof (moves_roomy xs adr s t3 _ q (k + Nw) M3 Rm) as Rt3. cbn [length app] in Rt3.
        destruct (go_storing lev xs adr links base s0 Pc Ev prog (S (S (S jc))) x s t3 [w] r q (advanced x down q)) as (t4 & E4 & M4); auto.
        { rewrite Sc. apply stands_1. exact St4. }
        { rewrite Tx. unfold advanced. exact M3. }
        { apply (roomy_mono _ _ _ Rt3). lia. }
        { rewrite Tx. discriminate. }
        { rewrite Tx. exact Ia. }
        rewrite Sc in E4. cbn [length] in E4. rewrite Nat.add_1_r in E4.
        destruct (go_jmp lev xs adr links base s0 Pc Ev prog _ jf lf s t4 [w] r _ St5 StF Rd M4) as (t5 & E5 & M5).
        exists t5. split; [|exact M5].
        apply (goes_trans _ _ _ _ (go_pseudo _ _ t _ St1 eq_refl)). apply (goes_trans _ _ _ _ E2). apply (goes_trans _ _ _ _ E3).
        apply (goes_trans _ _ _ _ E4). exact E5. }
      induction 1 as [q Bq|q h q1 q2 Nb Mq Nh Ia Lq IH|q q1 Nb Mq]; intros Iq t Mt.
      - destruct (Test q t Iq Mt) as (t1 & E1 & M1).
        replace (if down then q x <? z2 else z2 <? q x) with true in E1 by (unfold beyond in Bq; destruct down; lia). eauto.
      - destruct (Body q t h q1 Iq Nb Mq Mt) as (t1 & E1 & M1). destruct (Next q1 t1 M1 Ia) as (t2 & E2 & M2).
        destruct (IH ltac:(rewrite set_same; exact Ia) t2 M2) as (t3 & E3 & M3). exists t3. split; [|exact M3].
        destruct h; [|contradiction|]; (apply (goes_trans _ _ _ _ E1), (goes_trans _ _ _ _ E2), E3).
      - apply (Body q t Broke q1 Iq Nb Mq Mt). }
    destruct (Loop _ _ Lp ltac:(rewrite set_same; exact I1) sc Md) as (sd & Ed & Me).
    pose proof (moves_roomy xs adr s sd _ r' (k + Nw) Me Rm) as Rmd. cbn [length] in Rmd.
    destruct (go_pop lev xs adr links base s0 Pc Ev prog (S je) s sd [] w r r' St6 Rd Me (roomy_mono _ _ 0 Rmd ltac:(lia))) as (se & Ee & Mf).
    exists se. split; [|exact Mf].
    apply (goes_trans _ _ _ _ (go_pseudo _ _ s _ St0 eq_refl)). apply (goes_trans _ _ _ _ Ea). apply (goes_trans _ _ _ _ Eb).
    apply (goes_trans _ _ _ _ Ec). apply (goes_trans _ _ _ _ Ed). apply (goes_trans _ _ _ _ (go_pseudo _ _ sd _ StE eq_refl)).
    replace (i + _)%nat with (S (S je)); [exact Ee|].
    unfold je, jc, jf. cbn [length]. rewrite app_length. cbn [length]. rewrite app_length. cbn [length]. rewrite app_length. cbn [length]. lia.
  Qed.

  Lemma pmain_for a t b ts x e1 d (down : bool) us e2 f vs st o : tk a = tFOR -> spells_var t x -> tk b = tASSIGN -> gexpr ts e1 ->
    tk d = (if down then tDOWNTO else tTO) -> gexpr us e2 -> tk f = tDO -> ok_pstmt o vs st ->
    ok_pstmt o (a :: t :: b :: ts ++ d :: us ++ f :: vs) (PFor x down e1 e2 st).
  Proof.
    intros Ha Sx Hb G1 Hd G2 Hf IH brk cont (Tx & T1 & T2 & Nx & W) U Ln rest F Fe Lr O E l C B A Hl Hl2 HB HC HA HA2.
    destruct (pok_expr ts e1 xInteger xInteger G1 T1) as (pe1 & N1 & _ & Pe1 & Re1); [intros y Hy; apply U; right; apply in_or_app; auto|].
    destruct (pok_expr us e2 xInteger xInteger G2 T2) as (pe2 & N2 & _ & Pe2 & Re2).
    { intros y Hy; apply U; right; apply in_or_app; right; apply in_or_app; auto. }
    destruct (U x (or_introl eq_refl)) as (Ux & Ua).
    inversion Ln as [|? ? La Ln1]; subst. inversion Ln1 as [|? ? _ Ln2]; subst. inversion Ln2 as [|? ? _ Ln3]; subst.
    apply Forall_app in Ln3. destruct Ln3 as (_ & Ln3). inversion Ln3 as [|? ? _ Ln4]; subst. apply Forall_app in Ln4. destruct Ln4 as (_ & Ln4).
    inversion Ln4 as [|? ? _ Ln5]; subst.
    assert (Len : Z.of_nat (length (a :: t :: b :: ts ++ d :: us ++ f :: vs)) = 5 + Z.of_nat (length ts) + Z.of_nat (length us) + Z.of_nat (length vs)).
    { cbn [length]. rewrite app_length. cbn [length]. rewrite app_length. cbn [length]. lia. }
    rewrite Len in *. clear Ln Ln1 Ln2 Ln3 Ln4.
    set (O1 := ((O ++ [mkOp oLINE 0 (tline a)]) ++ pe1) ++ [refer lev oSTS x]).
    set (O2 := (((O1 ++ pe2) ++ [mkOp oLABEL 0 (l + 1)]) ++ [mkOp oDUP 0 0]) ++ [refer lev oLDS x]).
    destruct (IH true true W) with (rest := rest) (E := E) (l := l + 1 + 1 + 1) (C := l + 1 + 1 + 1) (B := l + 1 + 1) (A := 0)
      (O := O2 ++ [mkOp (if down then oJGT else oJLT) 0 (l + 1 + 1)])
      as (p1 & l1 & N3 & Hl1 & C1 & S1); auto; try lia.
    { intros y Hy. apply U. right. apply in_or_app. right. apply in_or_app. auto. }
    exists (mkOp oLINE 0 (tline a) :: pe1 ++ refer lev oSTS x :: pe2 ++ mkOp oLABEL 0 (l + 1) :: mkOp oDUP 0 0 :: refer lev oLDS x ::
        mkOp (if down then oJGT else oJLT) 0 (l + 1 + 1) :: p1 ++
        [mkOp oLABEL 0 (l + 1 + 1 + 1); refer lev oLDS x; mkOp (if down then oDEC else oINC) 0 0; refer lev oSTS x; mkOp oJMP 0 (l + 1); mkOp oLABEL 0 (l + 1 + 1); mkOp oINDS 0 (-2 mod 65536)]),
      l1, (S (N1 + N2 + N3)). split; [lia|]. split.
    - intros [|n] Hn; [lia|]. rewrite pstatement_S. cbn [app]. rewrite <- app_assoc. cbn [app]. rewrite <- app_assoc. cbn [app]. rewrite pany_for by assumption.
      unfold for_statement. rewrite c_counted, c_new by lia. rewrite c_counted, c_new by lia. rewrite c_counted, c_new by lia. cbn [g_continue g_break g_adjust].
      rewrite c_loop, c_get, c_token. unfold cur. cbn [hd toks].
      destruct Sx as (Sx1 & Sx2 & Sx3 & _). rewrite Sx1, Tx.
      change ((kind_of xInteger =? sSUBRANGE) || (kind_of xInteger =? sSCALAR)) with false. cbv iota.
      change (negb ((kind_of xInteger =? sINT) || (kind_of xInteger =? sWORD) || (kind_of xInteger =? sSHORTINT) || (kind_of xInteger =? sSHORTWORD) || is_long_var (kind_of xInteger))) with false. cbv iota.
      change (var_type (kind_of xInteger)) with xInteger.
      unfold assignment. rewrite c_get, (c_expect tASSIGN _ b) by exact Hb.
      rewrite Pe1; [|lia|apply (tok_ended _ _ _ Hd); destruct down; cbn; tauto]. cbn [binde].
      rewrite (c_ref _ _ _ _ _ _ _ _ oSTS (tsym t) x) by (cbn; try tauto; assumption). cbn [binds].
      fold O1. rewrite !c_token. cbn [hd].
      replace (negb ((tk d =? tDOWNTO) || (tk d =? tTO))) with false by (rewrite Hd; destruct down; reflexivity).
      replace (tk d =? tDOWNTO) with down by (rewrite Hd; destruct down; reflexivity).
      rewrite c_get. rewrite Pe2; [|lia|apply (tok_ended _ _ _ Hf); cbn; tauto]. cbn [binde].
      rewrite (c_expect tDO) by exact Hf. rewrite c_label by lia. rewrite c_simple by reflexivity.
      rewrite (c_ref _ _ _ _ _ _ _ _ oLDS (tsym t) x) by (cbn; try tauto; assumption).
      fold O2. rewrite c_jump by (destruct down; cbn; try tauto; lia).
      rewrite C1 by lia. cbn [binds]. rewrite c_label by lia.
      rewrite (c_ref _ _ _ _ _ _ _ _ oLDS (tsym t) x) by (cbn; try tauto; assumption).
      rewrite c_simple by (destruct down; reflexivity).
      rewrite (c_ref _ _ _ _ _ _ _ _ oSTS (tsym t) x) by (cbn; try tauto; assumption).
      rewrite c_jump by (cbn; try tauto; lia). rewrite c_label by lia. rewrite c_inds by lia. rewrite c_loop.
      unfold O2, O1. flat.
    - refine (psim_for (tline a) pe1 pe2 p1 (l + 1) (l + 1 + 1) (l + 1 + 1 + 1) x down ts us e1 e2 _ _ (fun K => pmeans K st) Tx Ux Nx Re1 Re2 S1 _ _ _ _ C B A); lia.
  Qed.
  Definition psim_consts (ps : list opType) (sL nL : Z) (T : etype) (ks : list kconst) : Prop :=
    forall adr links base s0, placed lev xs adr links base s0 -> c_ssz (cf s0) mod 2 = 0 ->
    forall prog i j, stands prog i ps -> labelled prog sL (i + length ps) -> labelled prog nL j -> forall s r z,
    ready xs adr links base s0 s r -> base < sp s / 2 -> roomy s 2 -> 2 <= sp s -> tops s [z mod 65536] -> inr T z = true ->
    exists s', goes prog (i, s) ((if existsb (fun k => (kval k =? z)%Z) ks then i + length ps else j)%nat, s') /\ moves xs adr s s' [] r.

  Lemma pmain_consts ts ks T : gconsts ts ks -> is32 T = false -> forallb (const_ok T) ks = true ->
    forall sL nL, 0 <= sL <= 65535 -> 0 <= nL <= 65535 ->
    exists ps, (forall n rest O E l C B A, (length ts <= n)%nat -> tk (hd eoftok rest) <> tCOMMA ->
        case_constants n sL nL (mkComp (ts ++ rest) O E l lev C B A) = SDone (mkComp rest (O ++ ps) E l lev C B A)) /\
      psim_consts ps sL nL T ks.
  Proof.
    intros G L W sL nL HsL HnL. destruct (main_consts lev xs ts ks T G L W sL nL HsL HnL) as (ps & Cp & Sm). exists ps. split; [exact Cp|].
    intros adr links base s0 Pc Ev prog i j St Ls Ln s r z Rd Bs Rm S2 Tp Iz.
    destruct (Sm adr links base s0 Pc Ev prog i j St Ls Ln s r z Rd Bs (roomy_room _ _ Rm) S2 Tp Iz) as (s' & E & M). exists s'. split; [apply goes_runs, E|exact M].
  Qed.

  Lemma psim_end nL k C B A e T : psim_cases [mkOp oLABEL 0 nL] k C B A e T (fun K => pmeans_cases K QEnd).
  Proof.
    intros Kc Nw Nw0 adr links base s0 Pc Ev prog Ab i St Le s r z h r' Rd Bs Rm S2 Tp Iz (-> & ->). apply stands_cons in St. destruct St as (St & _).
    exists s. split; [|apply (moves_refl xs adr links base s0 s r Rd)]. cbn [length]. rewrite Nat.add_1_r. apply (go_pseudo _ _ _ _ St eq_refl).
  Qed.
  Lemma psim_otherwise lt p1 k1 k C B A e T M : A <= -2 -> psim p1 k1 C B A M -> k1 <= k ->
    psim_cases (mkOp oLABEL 0 lt :: p1) k C B A e T (fun K _ => M K).
  Proof.
    intros HA S1 Hk Kc Nw Nw0 adr links base s0 Pc Ev prog Ab i St Le s r z h r' Rd Bs Rm S2 Tp Iz Ms. apply stands_cons in St. destruct St as (St0 & St).
    apply (poutcome_pre adr links base s0 Pc prog i (S i) _ C B A s s r r h r' Rd (go_pseudo _ _ s _ St0 eq_refl) (moves_refl xs adr links base s0 s r Rd) ltac:(lia)).
    replace (i + length (mkOp oLABEL 0 lt :: p1))%nat with (S i + length p1)%nat by (cbn [length]; lia).
    apply (S1 Kc Nw Nw0 adr links base s0 Pc Ev prog Ab (S i) St s r h r' Rd Bs); [|exact Ms]. apply (roomy_mono _ _ _ Rm). lia.
  Qed.

  Lemma psim_one lt sL nL pc p1 tail k1 k2 k C B A e T ks M M2 : A <= -2 ->
    psim_consts pc sL nL T ks -> psim p1 k1 C B A M -> hd_error tail = Some (mkOp oLABEL 0 nL) -> psim_cases tail k2 C B A e T M2 ->
    k1 <= k -> k2 <= k -> 2 <= k ->
    psim_cases (mkOp oLABEL 0 lt :: pc ++ mkOp oLABEL 0 sL :: p1 ++ mkOp oJMP 0 e :: tail) k C B A e T
      (fun K z r h r' => if existsb (fun k => kval k =? z) ks then M K r h r' else M2 K z r h r').
  Proof.
    intros HA Sc S1 Ht S2 K1 K2 K3 Kc Nw Nw0 adr links base s0 Pc Ev prog Ab i St Le s r z h r' Rd Bs Rm Sp2 Tp Iz Ms.
    set (fin := (i + length (mkOp oLABEL 0 lt :: pc ++ mkOp oLABEL 0 sL :: p1 ++ mkOp oJMP 0 e :: tail))%nat) in *.
    apply stands_cons in St. destruct St as (St0 & St). apply stands_app in St. destruct St as (StC & St).
    apply stands_cons in St. destruct St as (StL & St). apply stands_app in St. destruct St as (StP & St).
    apply stands_cons in St. destruct St as (StJ & StT).
    assert (StN : labelled prog nL (S (S (S i + length pc) + length p1))).
    { destruct tail as [|p q]; cbn in Ht; [discriminate|]. injection Ht as ->. apply stands_cons in StT. apply StT. }
    assert (Fin : fin = (S (S (S i + length pc) + length p1) + length tail)%nat).
    { unfold fin. cbn [length]. rewrite app_length. cbn [length]. rewrite app_length. cbn [length]. lia. }
    assert (Bs' : base < sp s / 2).
    { assert ((sp s + A) / 2 <= (sp s + (-1) * 2) / 2) by (apply Z.div_le_mono; lia). rewrite Z.div_add in H by lia. lia. }
    destruct (Sc adr links base s0 Pc Ev prog (S i) _ StC StL StN s r z Rd Bs' (roomy_mono _ _ 2 Rm ltac:(lia)) Sp2 Tp Iz) as (s1 & E1 & M1).
    pose proof (goes_trans _ _ _ _ (go_pseudo _ _ s _ St0 eq_refl) E1) as E2.
    pose proof (moves_ready lev xs adr links base s0 Pc s s1 [] r r Rd M1) as Rd1.
    assert (Bs1 : base <= (sp s1 + A) / 2) by (destruct M1 as (_ & Q & _); cbn [length] in Q; replace (sp s1) with (sp s) by lia; exact Bs).
    assert (Sp1 : 2 <= sp s1) by (destruct M1 as (_ & Q & _); cbn [length] in Q; lia).
    pose proof (roomy_same s s1 r adr _ M1 Rm) as Rm1.
    apply (poutcome_pre adr links base s0 Pc prog i _ _ C B A s s1 r r h r' Rd E2 M1 ltac:(lia)).
    destruct (existsb (fun k => kval k =? z) ks).
    - pose proof (go_pseudo _ _ s1 _ StL eq_refl) as E3.
      apply (poutcome_pre adr links base s0 Pc prog _ _ _ C B A s1 s1 r r h r' Rd1 E3 (moves_refl xs adr links base s0 s1 r Rd1) ltac:(lia)).
      assert (Q : poutcome adr prog (S (S i + length pc)) (S (S i + length pc) + length p1) C B A s1 h r').
      { apply (S1 Kc Nw Nw0 adr links base s0 Pc Ev prog Ab _ StP s1 r h r' Rd1 Bs1); [|exact Ms]. apply (roomy_mono _ _ _ Rm1). lia. }
      apply (poutcome_post _ _ _ _ _ _ _ _ _ _ _ Q). intros s2 Q2.
      apply (go_jmp lev xs adr links base s0 Pc Ev prog _ _ _ s1 s2 [] r r' StJ Le Rd1 Q2).
    - rewrite Fin in *. apply (S2 Kc Nw Nw0 adr links base s0 Pc Ev prog Ab _ StT Le s1 r z h r' Rd1 Bs1 (roomy_mono _ _ (k2 + Nw) Rm1 ltac:(lia)) Sp1); [|exact Iz|exact Ms].
      apply (tops_kept lev xs adr links base s0 Pc s s1 r _ Bs' M1 Tp).
  Qed.

  Lemma gpcases_head ts cs rest : gpcases ts cs -> tk (hd eoftok (ts ++ rest)) <> tEND.
  Proof.
    assert (K : forall ts ks rest, gconsts ts ks -> tk (hd eoftok (ts ++ rest)) <> tEND).
    { intros us ks r' H. assert (S : forall t k, spells_const t k -> tk t <> tEND) by (intros t k; destruct k; cbn; intros (-> & _); discriminate).
      destruct H; cbn [app hd]; eapply S; eassumption. }
    destruct 1 as [us ks a|us ks a|us ks a|a|a];
      [rewrite <- app_assoc; eapply K; eassumption|rewrite <- app_assoc; eapply K; eassumption|rewrite <- app_assoc; eapply K; eassumption| |];
      cbn [app hd]; match goal with H : tk _ = tELSE |- _ => rewrite H end; discriminate.
  Qed.


  (** One case up to and including the jump behind its pstatement *)
  Lemma phead_case brk cont T ts ks a o us st :
    gconsts ts ks -> tk a = tCOLON -> ok_pstmt o us st ->
    is32 T = false -> forallb (const_ok T) ks = true -> wf_pstmt brk cont st -> (forall x, In x (pstmt_vars st) -> usable x) ->
    Forall line_ok us ->
    forall rest this e O E l C B A, follows rest -> tk (hd eoftok rest) <> tELSE -> line_ok (hd eoftok rest) ->
    0 <= this <= 65535 -> 0 <= e <= 65535 -> 0 <= l -> l + 2 + 2 * Z.of_nat (length us) <= 65535 ->
    (brk = true -> 0 < B <= 65535) -> (cont = true -> 0 < C <= 65535) -> A <= -2 -> -32768 <= A - 2 * Z.of_nat (length us) ->
    exists pc p1 l1 N, l + 2 <= l1 <= l + 2 + 2 * Z.of_nat (length us) /\
      psim_consts pc (l + 1 + 1) (l + 1) T ks /\ psim p1 (2 * Z.of_nat (length us)) C B A (fun K => pmeans K st) /\
      forall n, (N <= n)%nat ->
      pcases (S n) this e (mkComp (ts ++ a :: us ++ rest) O E l lev C B A) =
      (let c := mkComp rest (O ++ mkOp oLABEL 0 this :: pc ++ mkOp oLABEL 0 (l + 1 + 1) :: p1 ++ [mkOp oJMP 0 e]) E l1 lev C B A in
      if negb (token c =? tSEMICOLON) && negb (token c =? tEND) then SDone (error eEND c)
      else
        let c := if token c =? tSEMICOLON then getToken c else c in
        if token c =? tEND then SDone (getToken (data_op oLABEL (l + 1) c))
        else pcases n (l + 1) e c).
  Proof.
    intros Gc Ha IH L Wk W U Ln rest this e O E l C B A F Fe Lr Ht He Hl Hl2 HB HC HA HA2.
    destruct (pmain_consts ts ks T Gc L Wk (l + 1 + 1) (l + 1) ltac:(lia) ltac:(lia)) as (pc & Pc & Sc).
    destruct (IH brk cont W U Ln rest F) with (E := E) (l := l + 1 + 1) (C := C) (B := B) (A := A)
      (O := ((O ++ [mkOp oLABEL 0 this]) ++ pc) ++ [mkOp oLABEL 0 (l + 1 + 1)])
      as (p1 & l1 & N1 & Hl1 & C1 & S1); auto; try lia.
    exists pc, p1, l1, (length ts + N1)%nat. split; [lia|]. split; [exact Sc|]. split; [exact S1|].
    intros n Hn. rewrite pcases_S. unfold one_case. rewrite c_counted, c_new, c_token by lia.
    replace (tk (hd eoftok (ts ++ a :: us ++ rest)) =? tELSE) with false by (pose proof (consts_head ts ks (a :: us ++ rest) Gc); lia).
    rewrite c_counted, c_new, c_label by lia.
    rewrite Pc; [|lia|cbn [hd]; rewrite Ha; discriminate]. cbn [binds].
    rewrite (c_expect tCOLON) by exact Ha. rewrite c_label by lia. rewrite C1 by lia. cbn [binds]. rewrite c_jump by (cbn; try tauto; lia).
    rewrite <- !app_assoc. reflexivity.
  Qed.


  Ltac fin := cbn [length app] in *; rewrite ?app_length in *; cbn [length] in *; rewrite ?app_length in *; cbn [length] in *.


  Lemma pmain_last ts ks a o us st ds b : gconsts ts ks -> tk a = tCOLON -> ok_pstmt o us st -> tk b = tEND ->
    ds = [] \/ (exists d, ds = [d] /\ tk d = tSEMICOLON) ->
    ok_pcases (ts ++ a :: us ++ ds ++ [b]) (QCase ks st QEnd).
  Proof.
    intros Gc Ha IH Hb Hds brk cont T L (Wk & W & _) U Ln rest this e O E l C B A Ht He Hl Hl2 HB HC HA HA2.
    apply Forall_app in Ln. destruct Ln as (_ & Ln). inversion Ln as [|? ? _ Ln1]; subst. apply Forall_app in Ln1. destruct Ln1 as (Ln1 & Ln2).
    pose proof (consts_len _ _ Gc) as Lc.
    assert (Lh : line_ok (hd eoftok (ds ++ b :: rest)) /\ follows (ds ++ b :: rest) /\ tk (hd eoftok (ds ++ b :: rest)) <> tELSE).
    { destruct Hds as [->|(d & -> & Hd)]; cbn [app] in *; inversion Ln2; subst; (split; [assumption|apply follows_end; auto]). }
    destruct Lh as (Lh & Fh & Eh).
    assert (Len : Z.of_nat (length (ts ++ a :: us ++ ds ++ [b])) = Z.of_nat (length ts) + Z.of_nat (length us) + Z.of_nat (length ds) + 2) by (fin; lia).
    rewrite Len in *.
    destruct (phead_case brk cont T ts ks a o us st Gc Ha IH L Wk W) with (rest := ds ++ b :: rest) (this := this) (e := e) (O := O) (E := E) (l := l) (C := C) (B := B) (A := A)
      as (pc & p1 & l1 & N & Hl1 & Sc & S1 & Cp); auto; try lia.
    { intros y Hy. apply U, in_or_app. auto. }
    exists (mkOp oLABEL 0 this :: pc ++ mkOp oLABEL 0 (l + 1 + 1) :: p1 ++ mkOp oJMP 0 e :: [mkOp oLABEL 0 (l + 1)]), l1, (S N).
    split; [lia|]. split; [reflexivity|]. split.
    - intros [|n] Hn; [lia|].
      replace ((ts ++ a :: us ++ ds ++ [b]) ++ rest) with (ts ++ a :: us ++ ds ++ b :: rest) by (rewrite <- !app_assoc; cbn [app]; rewrite <- !app_assoc; reflexivity).
      rewrite Cp by lia. cbv zeta. rewrite !c_token.
      destruct Hds as [->|(d & -> & Hd)]; cbn [app hd].
      + rewrite Hb. change (tEND =? tSEMICOLON) with false. rewrite Z.eqb_refl. cbn [negb andb]. rewrite c_token. cbn [hd]. rewrite Hb, Z.eqb_refl.
        rewrite c_label, c_get by lia. rewrite <- !app_assoc. cbn [app]. rewrite <- !app_assoc. cbn [app]. rewrite <- !app_assoc. reflexivity.
      + rewrite Hd, Z.eqb_refl. cbn [negb andb]. rewrite c_get, c_token. cbn [hd]. rewrite Hb, Z.eqb_refl.
        rewrite c_label, c_get by lia. rewrite <- !app_assoc. cbn [app]. rewrite <- !app_assoc. cbn [app]. rewrite <- !app_assoc. reflexivity.
    - refine (psim_one this (l + 1 + 1) (l + 1) pc p1 [mkOp oLABEL 0 (l + 1)] _ 0 _ C B A e T ks (fun K => pmeans K st) (fun K => pmeans_cases K QEnd) HA Sc S1 eq_refl (psim_end _ _ _ _ _ _ _) _ _ _); lia.
  Qed.

  Lemma pmain_cases ts ks a o us st d vs cs : gconsts ts ks -> tk a = tCOLON -> ok_pstmt o us st -> tk d = tSEMICOLON -> gpcases vs cs -> ok_pcases vs cs ->
    ok_pcases (ts ++ a :: us ++ d :: vs) (QCase ks st cs).
  Proof.
    intros Gc Ha IH Hd Gv IHc brk cont T L (Wk & W & Wc) U Ln rest this e O E l C B A Ht He Hl Hl2 HB HC HA HA2.
    apply Forall_app in Ln. destruct Ln as (_ & Ln). inversion Ln as [|? ? _ Ln1]; subst. apply Forall_app in Ln1. destruct Ln1 as (Ln1 & Ln2).
    inversion Ln2 as [|? ? Ld Ln3]; subst.
    pose proof (consts_len _ _ Gc) as Lc.
    destruct (follows_end d (vs ++ rest) (or_intror Hd)) as (Fh & Eh).
    assert (Len : Z.of_nat (length (ts ++ a :: us ++ d :: vs)) = Z.of_nat (length ts) + Z.of_nat (length us) + Z.of_nat (length vs) + 2) by (fin; lia).
    rewrite Len in *.
    destruct (phead_case brk cont T ts ks a o us st Gc Ha IH L Wk W) with (rest := d :: vs ++ rest) (this := this) (e := e) (O := O) (E := E) (l := l) (C := C) (B := B) (A := A)
      as (pc & p1 & l1 & N & Hl1 & Sc & S1 & Cp); auto; try lia.
    { intros y Hy. apply U, in_or_app. auto. }
    destruct (IHc brk cont T L Wc) with (rest := rest) (this := l + 1) (e := e) (E := E) (l := l1) (C := C) (B := B) (A := A)
      (O := O ++ mkOp oLABEL 0 this :: pc ++ mkOp oLABEL 0 (l + 1 + 1) :: p1 ++ [mkOp oJMP 0 e])
      as (p2 & l2 & N2 & Hl2' & Hp & C2 & S2); auto; try lia.
    { intros y Hy. apply U, in_or_app. auto. }
    exists (mkOp oLABEL 0 this :: pc ++ mkOp oLABEL 0 (l + 1 + 1) :: p1 ++ mkOp oJMP 0 e :: p2), l2, (S (N + N2)).
    split; [lia|]. split; [reflexivity|]. split.
    - intros [|n] Hn; [lia|].
      replace ((ts ++ a :: us ++ d :: vs) ++ rest) with (ts ++ a :: us ++ d :: vs ++ rest) by (rewrite <- !app_assoc; cbn [app]; rewrite <- !app_assoc; reflexivity).
      rewrite Cp by lia. cbv zeta. rewrite !c_token. cbn [hd]. rewrite Hd, Z.eqb_refl. cbn [negb andb]. rewrite c_get, c_token.
      replace (tk (hd eoftok (vs ++ rest)) =? tEND) with false by (pose proof (gpcases_head vs cs rest Gv); lia).
      rewrite C2 by lia. rewrite <- !app_assoc. cbn [app]. rewrite <- !app_assoc. cbn [app]. rewrite <- !app_assoc. reflexivity.
    - refine (psim_one this (l + 1 + 1) (l + 1) pc p1 p2 _ _ _ C B A e T ks (fun K => pmeans K st) (fun K => pmeans_cases K cs) HA Sc S1 Hp S2 _ _ _); lia.
  Qed.

  Lemma pmain_else a o us st ds b : tk a = tELSE -> ok_pstmt o us st -> tk b = tEND ->
    ds = [] \/ (exists d, ds = [d] /\ tk d = tSEMICOLON) -> ok_pcases (a :: us ++ ds ++ [b]) (QElse st).
  Proof.
    intros Ha IH Hb Hds brk cont T L W U Ln rest this e O E l C B A Ht He Hl Hl2 HB HC HA HA2.
    inversion Ln as [|? ? La Ln1]; subst. apply Forall_app in Ln1. destruct Ln1 as (Ln1 & Ln2).
    assert (Lh : line_ok (hd eoftok (ds ++ b :: rest)) /\ follows (ds ++ b :: rest) /\ tk (hd eoftok (ds ++ b :: rest)) <> tELSE).
    { destruct Hds as [->|(d & -> & Hd)]; cbn [app] in *; inversion Ln2; subst; (split; [assumption|apply follows_end; auto]). }
    destruct Lh as (Lh & Fh & Eh).
    assert (Len : Z.of_nat (length (a :: us ++ ds ++ [b])) = Z.of_nat (length us) + Z.of_nat (length ds) + 2) by (fin; lia).
    rewrite Len in *.
    destruct (IH brk cont W) with (rest := ds ++ b :: rest) (E := E) (l := l + 1) (C := C) (B := B) (A := A) (O := O ++ [mkOp oLABEL 0 this])
      as (p1 & l1 & N1 & Hl1 & C1 & S1); auto; try lia.
    exists (mkOp oLABEL 0 this :: p1), l1, (S N1). split; [lia|]. split; [reflexivity|]. split.
    - intros [|n] Hn; [lia|].
      replace ((a :: us ++ ds ++ [b]) ++ rest) with (a :: us ++ ds ++ b :: rest) by (cbn [app]; rewrite <- !app_assoc; reflexivity).
      rewrite pcases_S. unfold one_case. rewrite c_counted, c_new, c_token by lia. cbn [hd]. rewrite Ha, Z.eqb_refl.
      rewrite c_get, c_label by lia. rewrite C1 by lia. cbn [binds]. rewrite c_token.
      destruct Hds as [->|(d & -> & Hd)]; cbn [app hd].
      + rewrite Hb. change (tEND =? tSEMICOLON) with false. cbv iota. rewrite c_expect by exact Hb. rewrite <- app_assoc. reflexivity.
      + rewrite Hd, Z.eqb_refl, c_get. rewrite c_expect by exact Hb. rewrite <- app_assoc. reflexivity.
    - apply (psim_otherwise this p1 _ _ C B A e T (fun K => pmeans K st) HA S1). lia.
  Qed.

  Lemma pmain_case a ts e b us cs : tk a = tCASE -> gexpr ts e -> tk b = tOF -> ok_pcases us cs ->
    ok_pstmt false (a :: ts ++ b :: us) (PCase e cs).
  Proof.
    intros Ha G Hb IH brk cont (T & Te & L & W) U Ln rest F Fe Lr O E l C B A Hl Hl2 HB HC HA HA2.
    destruct (pok_expr ts e xAnyOrdinal T G Te) as (pe & N & _ & Pe & Re); [intros y Hy; apply U, in_or_app; auto|].
    inversion Ln as [|? ? La Ln1]; subst. apply Forall_app in Ln1. destruct Ln1 as (_ & Ln1). inversion Ln1 as [|? ? _ Ln2]; subst.
    assert (Len : Z.of_nat (length (a :: ts ++ b :: us)) = Z.of_nat (length ts) + Z.of_nat (length us) + 2) by (fin; lia).
    rewrite Len in *.
    destruct (IH brk cont T L W) with (rest := rest) (this := l + 1) (e := l + 1 + 1) (E := E) (l := l + 1 + 1) (C := C) (B := B) (A := A - 2)
      (O := (O ++ [mkOp oLINE 0 (tline a)]) ++ pe)
      as (p1 & l1 & N1 & Hl1 & Hp & C1 & S1); auto; try lia.
    { intros y Hy. apply U, in_or_app. auto. }
    exists (mkOp oLINE 0 (tline a) :: pe ++ p1 ++ [mkOp oLABEL 0 (l + 1 + 1); mkOp oINDS 0 (-2 mod 65536)]), l1, (S (N + N1)). split; [lia|]. split.
    - intros [|n] Hn; [lia|]. rewrite pstatement_S. cbn [app]. rewrite <- app_assoc. cbn [app]. rewrite pany_case by assumption.
      unfold case_statement. rewrite c_counted, c_new by lia. rewrite c_counted, c_new, c_get by lia.
      rewrite Pe by (try lia; apply (tok_ended _ _ tOF Hb); cbn; tauto). cbn [binde].
      rewrite (c_expect tOF) by exact Hb. cbn [g_continue g_break g_adjust]. rewrite c_loop.
      replace (s16 (A - 2)) with (A - 2) by (unfold s16, u16; destruct ((A - 2) mod 65536 <? 32768) eqn:Q; lia).
      rewrite C1 by lia. cbn [binds]. rewrite c_label by lia. rewrite c_inds by lia. cbn [g_continue g_break g_adjust]. rewrite c_loop.
      replace (s16 (A - 2 + 2)) with A by (unfold s16, u16; destruct ((A - 2 + 2) mod 65536 <? 32768) eqn:Q; lia).
      flat.
    - intros Kc Nw Nw0 adr links base s0 Pc Ev prog Ab i St s r h r' Rd Bs Rm (z & V & Ms).
      set (fin := (i + length (mkOp oLINE 0 (tline a) :: pe ++ p1 ++ [mkOp oLABEL 0 (l + 1 + 1); mkOp oINDS 0 (-2 mod 65536)]))%nat).
      apply stands_cons in St. destruct St as (St0 & St). apply stands_app in St. destruct St as (StE & St).
      apply stands_app in St. destruct St as (StC & St). apply stands_cons in St. destruct St as (StL & St). apply stands_cons in St. destruct St as (StI & _).
      assert (Fin : fin = S (S (S i + length pe + length p1))).
      { unfold fin. cbn [length]. rewrite app_length, app_length. cbn [length]. lia. }
      destruct (Re adr links base s0 Pc Ev prog (S i) StE s r z Rd (roomy_mono _ _ (2 * Z.of_nat (length ts)) Rm ltac:(lia)) V) as (Iz & s1 & E1 & M1).
      unfold words in M1. rewrite L in M1. change [z mod 65536] with ([] ++ [z mod 65536]) in M1.
      pose proof (moves_ready lev xs adr links base s0 Pc s s1 _ r r Rd M1) as Rd1.
      pose proof (moves_roomy xs adr s s1 _ r _ M1 Rm) as Rm1. cbn [length app] in Rm1.
      pose proof (moves_sp lev xs adr links base s0 Pc s s1 _ r r Rd M1) as (Sp1 & Sp0). cbn [length app] in Sp1.
      pose proof (moves_tops xs adr s s1 [] _ r M1) as Tp.
      pose proof M1 as (_ & Q & _). cbn [length app] in Q.
      assert (Oc : poutcome adr prog (S i + length pe) (S i + length pe + length p1) C B (A - 2) s1 h r').
      { apply (S1 Kc Nw Nw0 adr links base s0 Pc Ev prog Ab _ StC StL s1 r z h r' Rd1); auto; try lia.
        apply (roomy_mono _ _ _ Rm1). lia. }
      pose proof (goes_trans _ _ _ _ (go_pseudo _ _ s _ St0 eq_refl) E1) as E0.
      rewrite Fin.
      assert (Ad : A = 2 * Z.of_nat (length ([] ++ [z mod 65536])) + (A - 2)) by (cbn [length app]; lia).
      destruct h; cbn [poutcome] in *.
      + destruct Oc as (s2 & E2 & M2).
        pose proof (moves_again lev xs adr links base s0 Pc s s1 _ r r r' s2 Rd M1 M2) as M3.
        pose proof (moves_roomy xs adr s s2 _ r' _ M3 Rm) as Rm3. cbn [length app] in Rm3.
        destruct (go_pop lev xs adr links base s0 Pc Ev prog _ s s2 [] _ r r' StI Rd M3 (roomy_mono _ _ 0 Rm3 ltac:(lia))) as (s4 & E4 & M4).
        exists s4. split; [|exact M4].
        apply (goes_trans _ _ _ _ E0), (goes_trans _ _ _ _ E2), (goes_trans _ _ _ _ (go_pseudo _ _ s2 _ StL eq_refl)), E4.
      + intros j J. destruct (Oc j J) as (s2 & E2 & X2). exists s2. split; [apply (goes_trans _ _ _ _ E0 E2)|].
        rewrite Ad. apply (effect_after xs adr links base s0 s s1 _ r r s2 (A - 2) r' Rd M1 X2). cbn [length app]. lia.
      + intros j J. destruct (Oc j J) as (s2 & E2 & X2). exists s2. split; [apply (goes_trans _ _ _ _ E0 E2)|].
        rewrite Ad. apply (effect_after xs adr links base s0 s s1 _ r r s2 (A - 2) r' Rd M1 X2). cbn [length app]. lia.
  Qed.
End Rec.
