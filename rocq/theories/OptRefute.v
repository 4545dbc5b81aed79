(** Miscompilations by the optimizer *)

From Coq Require Import ZArith Bool List Lia ZifyBool.
From Verif Require Import Words State Opcodes SetModel LongModel Machine WordLemmas StateLemmas VmSpec VmProofs MemProofs
  EncodeSpec LongSpec OptSpec OptPassSpec PoptModel PoptLongModel Samples.
Import ListNotations.
Open Scope Z_scope.
Ltac Zify.zify_post_hook ::= Z.div_mod_to_equations.

Definition word_ok (s : st) (a : Z) : bool := negb ((sp s / 2 <? a / 2) && (a / 2 <=? sp s / 2 + DEPTH)).
Definition clean_op (s : st) (o : opType) : bool :=
  (negb (existsb (Z.eqb (op o)) [oLD; oLDB; oULDB]) || word_ok s (u16 (c_spb (cf s) + arg2 o + 0))) &&
  (negb (existsb (Z.eqb (op o)) [oLDS; oLDSB; oULDSB]) ||
     word_ok s (u16 (if s16 (arg2 o) >=? 0 then fp s + 10 + s16 (arg2 o) + 0 else fp s + s16 (arg2 o) + 0))) &&
  (negb (existsb (Z.eqb (op o)) [oLDS; oLDSB; oULDSB; oLAS; oSTS; oSTSB; oLDSM]) || (arg1 o =? 0)).

Lemma ex_in x l : In x l -> existsb (Z.eqb x) l = true.
Proof. intros H. apply existsb_exists. exists x. split; [exact H|apply Z.eqb_refl]. Qed.

Lemma clean_link s o i : clean_op s o = true -> ~ reads_link s o i.
Proof.
  intros H [k g Hin Hk _ _]. unfold clean_op in H. rewrite (ex_in _ _ Hin) in H. cbn [negb orb] in H.
  apply andb_true_iff in H. destruct H as [_ H]. apply Z.eqb_eq in H. rewrite H in Hk. cbn in Hk. lia.
Qed.
Lemma word_ok_spec s a : word_ok s a = true -> ~ (sp s / 2 < a / 2 <= sp s / 2 + DEPTH).
Proof. unfold word_ok. set (x := a / 2). set (y := sp s / 2). lia. Qed.

Lemma clean_check s l : forallb (clean_op s) l = true -> clean s l.
Proof.
  intros H. rewrite forallb_forall in H. split.
  - intros o i Ho R. specialize (H o Ho). destruct R as [a Hin E ->|a Hin E ->|R].
    + apply word16_iff in E. subst a. unfold clean_op in H. rewrite (ex_in _ _ Hin) in H. apply word_ok_spec.
      cbn [negb orb] in H. apply andb_true_iff in H. destruct H as [H _]. apply andb_true_iff in H. apply H.
    + assert (L0 : arg1 o = 0).
      { unfold clean_op in H. rewrite (ex_in (op o) [oLDS; oLDSB; oULDSB; oLAS; oSTS; oSTSB; oLDSM]) in H by (cbn [In] in *; tauto).
        cbn [negb orb] in H. apply andb_true_iff in H. destruct H as [_ H]. apply Z.eqb_eq, H. }
      destruct E as (g & z & Rg & Sg & E). rewrite L0 in Rg. inversion Rg; subst.
      apply signed16_unique in Sg. subst z. apply word16_iff in E. subst a.
      unfold clean_op in H. rewrite (ex_in (op o) _ Hin) in H. cbn [negb orb] in H.
      apply word_ok_spec. apply andb_true_iff in H. destruct H as [H _]. apply andb_true_iff in H. apply H.
    + exfalso. eapply clean_link; eassumption.
  - intros o o' i _ Ho' _. apply clean_link. apply H. exact Ho'.
Qed.

Definition opt_eqb (a b : option Z) : bool :=
  match a, b with Some x, Some y => x =? y | None, None => true | _, _ => false end.
Fixpoint upto (n : nat) : list Z := match n with O => [] | S n => Z.of_nat n :: upto n end.
(** the states differ visibly *)
Definition differ_st (m : Z) (s1 s2 : st) : bool :=
  negb (sp s1 =? sp s2) ||
  existsb (fun i => negb ((sp s1 / 2 <? i) && (i <=? m)) && negb (opt_eqb (rd s2 i) (rd s1 i))) (upto 64).
Definition differ (m : Z) (f f' : flow) : bool :=
  match f, f' with
  | Falls s1, Falls s2 => differ_st m s1 s2
  | Jumps l s1, Jumps l' s2 => negb (l =? l') || differ_st m s1 s2
  | Stops, _ => false
  | _, _ => true
  end.
Lemma differ_spec m f f' : differ m f f' = true -> ~ matches m f f'.
Proof.
  intros D M. assert (Hs : forall s1 s2, differ_st m s1 s2 = true -> ~ agree m s1 s2).
  { intros s1 s2 H (_ & Es & A). unfold differ_st in H. rewrite Es, Z.eqb_refl in H. cbn [negb orb] in H.
    apply existsb_exists in H. destruct H as (i & _ & H). apply andb_true_iff in H. destruct H as [H1 H2].
    rewrite A in H2; [|set (y := sp s1 / 2) in *; lia]. unfold opt_eqb in H2. destruct (rd s1 i); [rewrite Z.eqb_refl in H2|]; discriminate. }
  destruct f as [s1|l s1|]; cbn [matches] in M; [| |discriminate D]; destruct M as (s2 & -> & A); cbn [differ] in D.
  - exact (Hs _ _ D A).
  - rewrite Z.eqb_refl in D. exact (Hs _ _ D A).
Qed.

Definition room_ok (s : st) : bool :=
  (2 * DEPTH <=? sp s) && (sp s + 2 * DEPTH <? c_ssz (cf s)) && (c_ssz (cf s) <=? 65536) && (c_ssz (cf s) mod 2 =? 0).
Definition differs (s : st) (x y : list opType) : bool :=
  room_ok s && forallb (clean_op s) (x ++ y) && differ (sp s / 2 + DEPTH) (flow_list x s) (flow_list y s).


Lemma differs_spec s x y : differs s x y = true -> ~ refines x y.
Proof.
  intros D N. unfold differs in D. apply andb_true_iff in D. destruct D as [C D]. apply andb_true_iff in C. destruct C as [R C].
  unfold room_ok in R. rewrite !andb_true_iff in R. destruct R as [[[R1 R2] R3] R4]. unfold DEPTH in *.
  eapply differ_spec; [exact D|]. apply N; [unfold room, DEPTH; clear D C N; lia|unfold DEPTH; clear D C N; lia|apply clean_check; exact C|exact I].
Qed.

(** a decidable version of [wf_op] *)
Definition wf_opb (o : opType) : bool :=
  (0 <=? op o) && (op o <? 256) && (0 <=? arg1 o) && (arg1 o <? 256) && (0 <=? arg2 o) && (arg2 o <? 65536) &&
  (Z.testbit (op o) 6 || (arg1 o =? 0)) && (Z.testbit (op o) 7 || (arg2 o =? 0)).
Lemma wf_opb_spec o : wf_opb o = true -> wf_op o.
Proof.
  unfold wf_opb, wf_op. rewrite !andb_true_iff. intros [[[[[[[A B] C] D] E] F] G] H].
  repeat split; try lia; intros Z0; rewrite Z0 in *; [apply Z.eqb_eq, G|apply Z.eqb_eq, H].
Qed.

Definition mis (step : list opType -> nat -> tout) (w : nat * st * list opType) : bool :=
  let '(i, s, t) := w in
  forallb wf_opb t && match step t i with Next t' _ _ => differs s (code t) (code t') | _ => false end.

Lemma mis_spec step i s t : mis step (i, s, t) = true -> miscompiled step t.
Proof.
  unfold mis. intros H. apply andb_true_iff in H. destruct H as [W H]. split.
  - rewrite forallb_forall in W. apply Forall_forall. intros o Ho. apply wf_opb_spec, W, Ho.
  - destruct (step t i) as [| |t' nx ch] eqn:E; try discriminate. exists i, t', nx, ch. split; [exact E|]. eapply differs_spec. exact H.
Qed.
Lemma mis_all step l : forallb (mis step) l = true -> Forall (miscompiled step) (map snd l).
Proof.
  intros H. rewrite forallb_forall in H. apply Forall_forall. intros t Ht. apply in_map_iff in Ht.
  destruct Ht as [[[i s] t'] [E Hw]]. cbn in E. subst t'. eapply mis_spec. apply H. exact Hw.
Qed.
Definition brk (step : list opType -> nat -> tout) (w : nat * list opType) : bool :=
  let '(i, t) := w in forallb wf_opb t && match step t i with Broken => true | _ => false end.
Lemma brk_all step l : forallb (brk step) l = true -> Forall (breaks step) (map snd l).
Proof.
  intros H. rewrite forallb_forall in H. apply Forall_forall. intros t Ht. apply in_map_iff in Ht.
  destruct Ht as [[i t'] [E Hw]]. cbn in E. subst t'. specialize (H _ Hw). unfold brk in H. apply andb_true_iff in H. destruct H as [W H].
  split; [rewrite forallb_forall in W; apply Forall_forall; intros o Ho; apply wf_opb_spec, W, Ho|].
  exists i. destruct (step t i); [discriminate H|reflexivity|discriminate H].
Qed.

(** ------------------------------------------------------------------ *)
(** The witnesses *)
Definition push (v : Z) : opType := mkOp oPUSH 0 v.
Definition o1 (z : Z) : opType := mkOp z 0 0.
Definition lng (n : Z) : opType := mkOp oLONGOP8 n 0.
Definition m8 := demo_with [7; 3; 32768].
Definition m1 := demo_with [7; 3; 1].
Definition mm := demo_with [7; 3; 65535].
Definition mp := demo_with [7; 3; 32767].
Definition mb := demo_with [7; 3; 513].

Definition unary_fold_tables : list (nat * st * list opType) :=
  [ (0%nat, demo, [push 65535; o1 oGTZ]); (0%nat, demo, [push 65535; o1 oLTEZ]);
    (0%nat, demo, [push 65535; mkOp oJGTZ 0 7]); (0%nat, demo, [push 65535; mkOp oJLTEZ 0 7]) ].
Definition unary_reduce_tables : list (nat * st * list opType) :=
  [ (0%nat, mm, [push 2; o1 oDIV]); (0%nat, m8, [push 1; o1 oLT]); (0%nat, m8, [push 1; o1 oGTE]);
    (0%nat, m8, [push 1; o1 oGT]); (0%nat, m8, [push 1; o1 oLTE]); (0%nat, mp, [push 65535; o1 oLT]) ].
Definition binary_fold_tables : list (nat * st * list opType) :=
  [ (0%nat, demo, [push 65530; push 2; o1 oDIV]); (0%nat, demo, [push 65535; push 2; o1 oMOD]);
    (0%nat, demo, [push 5; push 65533; o1 oMOD]);
    (0%nat, demo, [push 65535; push 1; o1 oULT]); (0%nat, demo, [push 65535; push 1; o1 oUGTE]);
    (0%nat, demo, [push 65535; push 1; o1 oUGT]); (0%nat, demo, [push 65535; push 1; o1 oULTE]) ].
Definition binary_fold_breaks : list (nat * list opType) :=
  [ (0%nat, [push 1; push 0; o1 oDIV]); (0%nat, [push 1; push 0; o1 oMOD]); (0%nat, [push 1; push 0; o1 oUMOD]);
    (0%nat, [push 65535; push 65535; o1 oMUL]); (0%nat, [push 65535; push 65535; o1 oUMUL]) ].
Definition binary_reduce_tables : list (nat * st * list opType) :=
  [ (0%nat, demo, [push 1; mkOp oLAR 0 0; o1 oADD]);
    (0%nat, demo, [push 0; mkOp oLD 0 10; o1 oSUB]); (0%nat, demo, [push 0; mkOp oLDS 0 0; o1 oSUB]);
    (0%nat, demo, [push 0; mkOp oLDS 0 65516; o1 oLT]); (0%nat, demo, [push 0; mkOp oLDS 0 65516; o1 oGTE]);
    (0%nat, demo, [push 0; mkOp oLDS 0 65516; o1 oGT]); (0%nat, demo, [push 0; mkOp oLDS 0 65516; o1 oLTE]);
    (0%nat, demo, [mkOp oLAS 0 65534; push 4; o1 oADD]); (0%nat, m1, [mkOp oLASX 0 65534; push 4; o1 oADD]);
    (0%nat, m1, [mkOp oLASX 0 2; push 4; o1 oSUB]); (0%nat, demo, [mkOp oLD 0 10; push 65535; o1 oUDIV]) ].
Definition branch_tables : list (nat * st * list opType) :=
  [ (0%nat, m1, [o1 oNOT; mkOp oJEQUZ 0 7]); (0%nat, m1, [o1 oNOT; mkOp oJNEQZ 0 7]);
    (0%nat, m8, [o1 oNEG; mkOp oJLTZ 0 7]); (0%nat, m8, [o1 oNEG; mkOp oJGTEZ 0 7]);
    (0%nat, m8, [o1 oNEG; mkOp oJGTZ 0 7]); (0%nat, m8, [o1 oNEG; mkOp oJLTEZ 0 7]) ].
Definition stack_tables : list (nat * st * list opType) :=
  [ (2%nat, demo, [mkOp oLAR 0 0; push 1; o1 oXCHG]); (2%nat, demo, [push 1; mkOp oLAR 0 0; o1 oXCHG]) ].
Definition load_tables : list (nat * st * list opType) :=
  [ (0%nat, demo, [push 65534; mkOp oLDSX 0 0]); (0%nat, demo, [push 65534; mkOp oLASX 0 0]);
    (0%nat, demo, [push 4; mkOp oLASX 0 32766]) ].
Definition store_tables : list (nat * st * list opType) :=
  [ (0%nat, mb, [mkOp oSTB 0 10; mkOp oLDB 0 10]); (0%nat, mb, [mkOp oSTSB 0 0; mkOp oLDSB 0 0]);
    (0%nat, demo, [push 4; push 1; mkOp oSTSX 0 65534]); (0%nat, demo, [push 4; o1 oADD; mkOp oSTSX 0 0]);
    (0%nat, demo, [push 4; o1 oDUP; mkOp oSTSX 0 0]) ].
Definition long_unary_tables : list (nat * st * list opType) :=
  map (fun t => (2%nat, demo, t))
  [ [push 5; push 0; lng 0x60; push 1];
    [push 5; push 0; lng 0x50]; [push 5; push 0; lng 0x51]; [push 5; push 0; lng 0x52]; [push 5; push 0; lng 0x53];
    [push 5; push 0; lng 0x54]; [push 5; push 0; lng 0x55];
    [push 0; push 0; lng 0x56]; [push 0; push 0; lng 0x57]; [push 0; push 0; lng 0x58]; [push 0; push 0; lng 0x59];
    [push 0; push 0; lng 0x5a]; [push 0; push 0; lng 0x5b];
    [push 1; push 0; lng 0x58]; [push 1; push 0; lng 0x59]; [push 1; push 0; lng 0x5a]; [push 1; push 0; lng 0x5b];
    [push 65535; push 65535; lng 0x58];
    [push 0; push 0; lng 0x4b]; [push 0; push 0; lng 0x4c]; [push 0; push 0; lng 0x4d] ].
Definition long_unary_breaks : list (nat * list opType) :=
  [ (2%nat, [push 5; push 0; lng 0x60]); (2%nat, [push 0; push 32768; lng 0x41]); (2%nat, [push 0; push 32768; lng 0x42]);
    (1%nat, [push 5; lng 0x46]) ].
Definition long_binary_tables : list (nat * st * list opType) :=
  map (fun n => (4%nat, demo, [push 6; push 0; push 5; push 0; lng n])) [0x58; 0x59; 0x5a; 0x5b; 0x64; 0x65; 0x66; 0x67].
Definition long_binary_breaks : list (nat * list opType) :=
  map (fun n => (4%nat, [push 5; push 0; push 0; push 0; lng n])) [0x49; 0x4a; 0x63; oUDIV] ++
  map (fun n => (4%nat, [push 0; push 32768; push 65535; push 65535; lng n])) [0x46; 0x48; 0x49; 0x4a] ++
  [ (4%nat, [push 0; push 32768; push 1; push 0; lng 0x47]) ] ++
  map (fun n => (3%nat, [push 5; push 0; push 32; lng n])) [0x4b; 0x4c; 0x4d].

Lemma unary_fold_mis : Forall (miscompiled (table_step unary_body)) (map snd unary_fold_tables).
Proof. apply mis_all. vm_compute. reflexivity. Qed.
Lemma unary_reduce_mis : Forall (miscompiled (table_step unary_body)) (map snd unary_reduce_tables).
Proof. apply mis_all. vm_compute. reflexivity. Qed.
Lemma binary_fold_mis : Forall (miscompiled (table_step binary_body)) (map snd binary_fold_tables).
Proof. apply mis_all. vm_compute. reflexivity. Qed.
Lemma binary_fold_brk : Forall (breaks (table_step binary_body)) (map snd binary_fold_breaks).
Proof. apply brk_all. vm_compute. reflexivity. Qed.
Lemma binary_reduce_mis : Forall (miscompiled (table_step binary_body)) (map snd binary_reduce_tables).
Proof. apply mis_all. vm_compute. reflexivity. Qed.
Lemma branch_mis : Forall (miscompiled (table_step branch_body)) (map snd branch_tables).
Proof. apply mis_all. vm_compute. reflexivity. Qed.
Lemma stack_mis : Forall (miscompiled (table_step stack_body)) (map snd stack_tables).
Proof. apply mis_all. vm_compute. reflexivity. Qed.
Lemma load_mis : Forall (miscompiled (table_step load_body)) (map snd load_tables).
Proof. apply mis_all. vm_compute. reflexivity. Qed.
Lemma store_mis : Forall (miscompiled (table_step store_body)) (map snd store_tables).
Proof. apply mis_all. vm_compute. reflexivity. Qed.
Lemma long_unary_mis : Forall (miscompiled long_unary_step) (map snd long_unary_tables).
Proof. apply mis_all. vm_compute. reflexivity. Qed.
Lemma long_unary_brk : Forall (breaks long_unary_step) (map snd long_unary_breaks).
Proof. apply brk_all. vm_compute. reflexivity. Qed.
Lemma long_binary_mis : Forall (miscompiled long_binary_step) (map snd long_binary_tables).
Proof. apply mis_all. vm_compute. reflexivity. Qed.
Lemma long_binary_brk : Forall (breaks long_binary_step) (map snd long_binary_breaks).
Proof. apply brk_all. vm_compute. reflexivity. Qed.

(** ------------------------------------------------------------------ *)
(** The optimizer does not terminate *)
Lemma pass_fuel step n0 t i c r : pass n0 step t i c = r -> r <> Diverges ->
  forall n, pass n step t i c = Diverges \/ pass n step t i c = r.
Proof.
  revert t i c. induction n0 as [|n0 IH]; intros t i c E N n; [cbn in E; congruence|].
  destruct n as [|n]; [left; reflexivity|]. cbn [pass] in *. destruct (step t i) as [| |t' nx ch]; [right; exact E|right; exact E|].
  apply IH; assumption.
Qed.

Definition udiv_program : list opType := [mkOp oLABEL 0 1; push 7; push 3; o1 oUDIV; mkOp oST 0 10; o1 oEND].
Definition udiv_window : list opType := fst (refill [] (snd (leading udiv_program))).

Lemma loops step t i : step t i = Next t i 0%nat -> forall n c, pass n step t i c = Diverges.
Proof. intros H n. induction n as [|n IH]; intros c; [reflexivity|]. cbn [pass]. rewrite H. apply IH. Qed.

Lemma udiv_step t c : pass 100 (table_step unary_body) udiv_window 0 0 = Result t c -> 
  forall t' c', pass 100 long_unary_step t 1 c = Result t' c' -> forall n c2, pass n (table_step binary_body) t' 0 c2 = Diverges.
Proof.
  intros E. assert (E' : Result t c = pass 100 (table_step unary_body) udiv_window 0 0) by (symmetry; exact E).
  vm_compute in E'. injection E' as -> ->. clear E. intros t' c' E2.
  assert (E' : Result t' c' = _) by (symmetry; exact E2). vm_compute in E'. injection E' as -> ->. clear E2.
  apply loops. vm_compute. reflexivity.
Qed.

Lemma udiv_sweep n : sweep n udiv_window = Diverges.
Proof.
  unfold sweep. 
  destruct (pass 100 (table_step unary_body) udiv_window 0 0) as [| |t c] eqn:E1; [vm_compute in E1; discriminate E1|vm_compute in E1; discriminate E1|].
  destruct (pass_fuel _ _ _ _ _ _ E1 ltac:(discriminate) n) as [->| ->]; [reflexivity|]. cbn [andthen].
  pose proof (udiv_step t c E1) as U.
  destruct (pass 100 long_unary_step t 1 c) as [| |t' c'] eqn:E2.
  1,2: exfalso; clear U; assert (Q : Result t c = pass 100 (table_step unary_body) udiv_window 0 0) by (symmetry; exact E1);
       vm_compute in Q; injection Q as -> ->; vm_compute in E2; discriminate E2.
  destruct (pass_fuel _ _ _ _ _ _ E2 ltac:(discriminate) n) as [->| ->]; [reflexivity|]. cbn [andthen].
  rewrite (U t' c' eq_refl). reflexivity.
Qed.

Lemma udiv_diverges k m n : optimize k m n udiv_program = ODiverges.
Proof.
  unfold optimize. assert (E : leading udiv_program = ([mkOp oLABEL 0 1], snd (leading udiv_program))) by reflexivity.
  rewrite E. destruct (refill [] (snd (leading udiv_program))) as [t r] eqn:F.
  assert (t = udiv_window) as -> by (unfold udiv_window; rewrite F; reflexivity).
  destruct k as [|k]; [reflexivity|]. cbn [optimize_loop]. destruct m as [|m]; [reflexivity|]. cbn [sweeps].
  rewrite udiv_sweep. reflexivity.
Qed.
