(** Label resolution: the complete procedure. *)

From Coq Require Import ZArith Bool List Lia ZifyBool.
From Verif Require Import Words Opcodes Machine EncodeModel EncodeSpec WordLemmas EncodeProofs CodeLemmas
  FinalModel FinalSpec FinalProofs.
Import ListNotations.
Open Scope Z_scope.

Lemma instr_in p ops : In p (instructions ops) <-> In p ops /\ marker p = false.
Proof. unfold instructions. rewrite filter_In. destruct (marker p); cbn; split; intros [A B]; split; congruence. Qed.

Lemma instr_end body : instructions (body ++ [the_end]) = instructions body ++ [the_end].
Proof. rewrite instructions_app. reflexivity. Qed.

Lemma Forall_instr (P : opType -> Prop) ops : Forall P ops -> Forall P (instructions ops).
Proof. rewrite !Forall_forall. intros H p I. apply H. apply instr_in in I. tauto. Qed.

Lemma instr_length ops : (length (instructions ops) <= length ops)%nat.
Proof. induction ops as [|p ops IH]; [apply le_n|]. cbn [instructions filter length]. fold (instructions ops). destruct (marker p); cbn [negb length]; lia. Qed.

Lemma finalize_inv n ops ft entry syms rels f :
  program_text ops -> (length ops < n)%nat ->
  finalize n (write_program ops) ft entry syms rels = FDone f ->
  exists syms' undef code rels' entry',
    pass2 (p1_labels (pass1 ops rels)) 0 syms [] = Some (syms', undef) /\
    pass3 (p1_labels (pass1 ops rels)) undef 0 (instructions ops) (p1_rels (pass1 ops rels)) = Some (code, rels') /\
    pass4 (p1_labels (pass1 ops rels)) ft entry = Some entry' /\
    f = mkFinal (write_program code) syms' rels' (p1_lines (pass1 ops rels)) entry' (p1_bad (pass1 ops rels))
          (match p1_pend (pass1 ops rels) with [] => false | _ => true end).
Proof.
  intros (body & -> & W & NE) L H. unfold finalize in H.
  assert (Lb : (length body < n)%nat) by (rewrite app_length in L; cbn in L; lia).
  pose proof (write_read body [] n W NE Lb) as R. rewrite app_nil_r in R. fold the_end in R. rewrite R in H.
  destruct (pass2 _ 0 syms []) as [[syms' undef]|]; [|discriminate H].
  destruct (pass1_offsets (body ++ [the_end]) rels) as (_ & _ & O3). rewrite O3 in H.
  rewrite instr_end in *.
  pose proof (instr_length body) as Li.
  pose proof (write_read (instructions body) [] n (Forall_instr _ _ W) (Forall_instr _ _ NE) ltac:(lia)) as R2.
  rewrite app_nil_r in R2. fold the_end in R2. rewrite R2 in H.
  destruct (pass3 _ undef 0 _ _) as [[code rels']|] eqn:P3; [|discriminate H].
  destruct (pass4 _ ft entry) as [entry'|] eqn:P4; [|discriminate H].
  injection H as <-. do 5 eexists. split; [reflexivity|]. split; [exact P3|]. split; reflexivity.
Qed.

(** The undefined label table names the external symbols. *)
Lemma undef_spec labels syms syms' undef : pass2 labels 0 syms [] = Some (syms', undef) -> forall l,
  (0 <= table_get undef l <-> exists i, external_at syms l i) /\
  (0 <= table_get undef l -> exists i, table_get undef l = Z.of_nat i /\ external_at syms l i /\
     forall j, (j < i)%nat -> ~ external_at syms l j).
Proof.
  intros P l. destruct (pass2_undef _ _ _ _ _ _ P) as (t & E & T1 & T2). cbn [app] in E. subst t.
  assert (X : forall k s, nth_error syms k = Some s -> u_sym s = true -> svalue s = l -> external_at syms l k).
  { intros k s N U V. exists s. apply u_sym_spec in U. tauto. }
  split; [split|].
  - intros H. destruct (T2 l ltac:(lia) H) as (k & s & N & U & V & _). exists k. apply (X k s); assumption.
  - intros (i & s & N & C & U & V). apply table_get_found.
    + intros k v I. apply T1 in I. destruct I as (j & s0 & _ & _ & _ & ->). lia.
    + exists (0 + Z.of_nat i). apply T1. exists i, s. repeat split; try assumption. apply u_sym_spec. split; assumption.
  - intros H. destruct (T2 l ltac:(lia) H) as (k & s & N & U & V & E & F). exists k. split; [lia|].
    split; [apply (X k s); assumption|]. intros j J (s' & N' & C' & U' & V').
    apply (F j s' J N'); [|exact V']. apply u_sym_spec. split; assumption.
Qed.

Lemma p3_resolved ops rels syms syms' undef p q :
  pass2 (p1_labels (pass1 ops rels)) 0 syms [] = Some (syms', undef) ->
  code_size (instructions ops) < 65536 ->
  ~ unsigned_branch (op p) ->
  p3_one (p1_labels (pass1 ops rels)) undef p q -> resolved ops syms p q.
Proof.
  intros P S NU H.
  assert (LA : forall l, 0 <= table_get (p1_labels (pass1 ops rels)) l ->
     label_at ops l (u16 (table_get (p1_labels (pass1 ops rels)) l))).
  { intros l Hl. pose proof (get_label_some _ _ _ Hl) as A. pose proof (label_at_nonneg _ _ _ A).
    rewrite u16_small by lia. exact A. }
  assert (BP : forall o, branch o -> o <> oPCAL).
  { intros o B ->. unfold branch, oPCAL in B. cbn in B. unfold oJMP in B. repeat (destruct B as [B|B]; [discriminate B|]). exact B. }
  unfold resolved.
  destruct H as [(A & B & ->)|[(A & B & C & ->)|[(A & B & C & ->)|(A & B & ->)]]]; cbn [op arg1 arg2].
  - split; [reflexivity|]. split; [reflexivity|]. split; [intros X; exfalso; exact (BP _ X A)|].
    split; [intros _; left; apply LA, B|]. intros _ X. contradiction.
  - split; [reflexivity|]. split; [reflexivity|]. split; [intros X; exfalso; exact (BP _ X A)|].
    split; [|intros _ X; contradiction]. intros _. right. split; [|split; [|reflexivity]].
    + rewrite <- (get_label_iff ops rels). lia.
    + apply (undef_spec _ _ _ _ P). exact C.
  - split; [reflexivity|]. split; [reflexivity|]. split; [intros X; apply LA, C|].
    split; [intros X; contradiction|]. intros X. exfalso. apply X. apply branch_split. left. exact B.
  - split; [reflexivity|]. split; [reflexivity|]. split; [intros X; apply branch_split in X; tauto|].
    split; [intros X; contradiction|]. intros _ _. reflexivity.
Qed.

Lemma Forall2_impl_In {A B} (R S : A -> B -> Prop) l l' :
  (forall a b, In a l -> R a b -> S a b) -> Forall2 R l l' -> Forall2 S l l'.
Proof.
  intros H F. induction F as [|a b l l' Hab F IH]; constructor.
  - apply H; [left; reflexivity|exact Hab].
  - apply IH. intros x y I. apply H. right. exact I.
Qed.

Theorem finalize_resolved n ops ft entry syms rels f :
  program_text ops -> (length ops < n)%nat -> code_size (instructions ops) < 65536 ->
  (forall p, In p ops -> ~ unsigned_branch (op p)) ->
  finalize n (write_program ops) ft entry syms rels = FDone f ->
  exists out, f_prog f = write_program out /\ Forall2 (resolved ops syms) (instructions ops) out.
Proof.
  intros T L S NU H. destruct (finalize_inv _ _ _ _ _ _ _ T L H) as (syms' & undef & code & rels' & e & P2 & P3 & P4 & ->).
  exists code. split; [reflexivity|]. destruct (pass3_spec _ _ _ _ _ _ _ P3) as (F & _).
  revert F. apply Forall2_impl_In. intros p q I. apply (p3_resolved _ _ _ _ _ _ _ P2 S).
  apply NU. apply instr_in in I. tauto.
Qed.

Lemma label_codes_wf p q : wf_op p -> op q = op p -> arg1 q = arg1 p -> 0 <= arg2 q < 65536 -> Z.testbit (op p) 7 = true -> wf_op q.
Proof.
  intros (A & B & C & D & E) H1 H2 H3 H4. unfold wf_op. rewrite H1, H2. repeat split; try assumption; try lia. congruence.
Qed.

Lemma branch_bit7 o : branch o -> Z.testbit o 7 = true.
Proof. intros B. unfold branch in B. cbn [In] in B. repeat (destruct B as [<-|B]; [reflexivity|]). destruct B. Qed.

Lemma wf_end : wf_op the_end.
Proof. unfold wf_op, the_end, oEND. cbn [op arg1 arg2]. refine (conj _ (conj _ (conj _ (conj _ _)))); lia || (intros; reflexivity). Qed.

Lemma resolved_wf ops syms p q : code_size (instructions ops) < 65536 -> wf_op p -> resolved ops syms p q -> wf_op q.
Proof.
  intros S W (A & B & C & D & E).
  assert (LR : forall l a, label_at ops l a -> 0 <= a < 65536) by (intros l a X; apply label_at_nonneg in X; lia).
  destruct (in_dec Z.eq_dec (op p) [oJMP; oJEQUZ; oJNEQZ; oJLTZ; oJGTEZ; oJGTZ; oJLTEZ; oJEQU; oJNEQ; oJLT; oJGTE; oJGT; oJLTE;
        oJULT; oJUGTE; oJUGT; oJULTE]) as [I|N].
  - apply (label_codes_wf p q W A B); [apply (LR _ _ (C I))|apply branch_bit7, I].
  - destruct (Z.eq_dec (op p) oPCAL) as [X|X].
    + apply (label_codes_wf p q W A B); [|rewrite X; reflexivity].
      destruct (D X) as [Y|(_ & _ & ->)]; [apply (LR _ _ Y)|lia].
    + rewrite (E N X). exact W.
Qed.

Lemma Forall2_split {A B} (R : A -> B -> Prop) l1 x l2 out : Forall2 R (l1 ++ x :: l2) out ->
  exists o1 y o2, out = o1 ++ y :: o2 /\ Forall2 R l1 o1 /\ R x y /\ Forall2 R l2 o2.
Proof.
  intros H. apply Forall2_app_inv_l in H. destruct H as (o1 & o2 & F1 & F2 & ->).
  inversion F2 as [|? y ? o3 X Y Z E]. subst. exists o1, y, o3. repeat split; assumption.
Qed.

Lemma resolved_size ops syms l out : Forall2 (resolved ops syms) l out -> code_size out = code_size l.
Proof.
  intros F. induction F as [|p q l out (A & _) F IH]; [reflexivity|]. cbn [code_size fold_right].
  fold (code_size l) (code_size out). rewrite IH, A. reflexivity.
Qed.

Lemma write_app a b : write_program (a ++ b) = write_program a ++ write_program b.
Proof. induction a as [|p a IH]; [reflexivity|]. cbn [app write_program]. rewrite IH, app_assoc. reflexivity. Qed.

Theorem finalize_landing n ops ft entry syms rels f pre p post q rest :
  program_text ops -> (length ops < n)%nat -> code_size (instructions ops) < 65536 ->
  (forall p, In p ops -> ~ unsigned_branch (op p)) ->
  finalize n (write_program ops) ft entry syms rels = FDone f ->
  ops = pre ++ p :: post -> op p = oLABEL -> instructions post = q :: rest ->
  exists q', resolved ops syms q q' /\ fetch (f_prog f) (code_size (instructions pre)) = Some q'.
Proof.
  intros T L S NU H E EL EI. destruct (finalize_resolved _ _ _ _ _ _ _ T L S NU H) as (out & Ep & F).
  assert (I : instructions ops = instructions pre ++ q :: rest).
  { rewrite E, instructions_app. cbn [instructions filter]. fold (instructions post).
    replace (marker p) with true by (unfold marker; rewrite EL; reflexivity). cbn [negb]. rewrite EI. reflexivity. }
  rewrite I in F. destruct (Forall2_split _ _ _ _ _ F) as (o1 & q' & o2 & -> & F1 & X & F2).
  exists q'. split; [exact X|]. rewrite Ep, write_app. cbn [write_program].
  rewrite <- (resolved_size _ _ _ _ F1), <- write_size. apply fetch_add.
  apply (resolved_wf ops syms q q' S); [|exact X].
  assert (Iq : In q ops). { assert (Y : In q (instructions ops)) by (rewrite I; apply in_elt). apply instr_in in Y. tauto. }
  destruct T as (body & -> & W & _). apply in_app_iff in Iq. rewrite Forall_forall in W.
  destruct Iq as [Iq|[<-|[]]]; [apply W, Iq|apply wf_end].
Qed.

Theorem finalize_succeeds n ops ft entry syms rels :
  program_text ops -> (length ops < n)%nat -> references_ok ops syms ->
  (ft = FHT_PROGRAM -> has_label ops entry) ->
  exists f, finalize n (write_program ops) ft entry syms rels = FDone f.
Proof.
  intros T L (R1 & R2 & R3) RE. destruct T as (body & E & W & NE). 
  assert (Lb : (length body < n)%nat) by (rewrite E, app_length in L; cbn in L; lia).
  unfold finalize.
  pose proof (write_read body [] n W NE Lb) as R. rewrite app_nil_r in R. fold the_end in R. rewrite <- E in R. rewrite R.
  destruct (pass2_ok ops rels syms 0 [] R3) as ([syms' undef] & P2). rewrite P2.
  destruct (pass1_offsets ops rels) as (_ & _ & O3). rewrite O3.
  pose proof (instr_length body) as Li.
  pose proof (write_read (instructions body) [] n (Forall_instr _ _ W) (Forall_instr _ _ NE) ltac:(lia)) as RR.
  rewrite app_nil_r in RR. fold the_end in RR. rewrite <- instr_end, <- E in RR. rewrite RR.
  destruct (pass3_ok (p1_labels (pass1 ops rels)) undef (instructions ops) 0 (p1_rels (pass1 ops rels))) as ([code rels'] & P3).
  - intros p I J. apply get_label_iff. apply instr_in in I. apply R1; [tauto|]. apply branch_split. left. exact J.
  - intros p I J. apply instr_in in I. rewrite get_label_iff. destruct (R2 p ltac:(tauto) J) as [X|X]; [left; exact X|].
    right. apply (undef_spec _ _ _ _ P2). exact X.
  - rewrite P3. unfold pass4. destruct (ft =? FHT_PROGRAM) eqn:EF.
    + assert (X := RE ltac:(lia)). rewrite <- (get_label_iff ops rels) in X. replace (_ <? 0) with false by lia. eexists. reflexivity.
    + eexists. reflexivity.
Qed.

Theorem finalize_symbols n ops ft entry syms rels f :
  program_text ops -> (length ops < n)%nat ->
  finalize n (write_program ops) ft entry syms rels = FDone f ->
  Forall2 (symbol_resolved ops) syms (f_syms f) /\
  (ft = FHT_PROGRAM -> label_at ops entry (f_entry f)) /\ (ft <> FHT_PROGRAM -> f_entry f = entry).
Proof.
  intros T L H. destruct (finalize_inv _ _ _ _ _ _ _ T L H) as (syms' & undef & code & rels' & e & P2 & P3 & P4 & ->).
  cbn [f_syms f_entry]. split; [apply (pass2_syms _ _ _ _ _ _ _ P2)|].
  unfold pass4 in P4. split.
  - intros ->. rewrite Z.eqb_refl in P4. destruct (_ <? 0) eqn:X; [discriminate P4|]. injection P4 as <-.
    apply get_label_some. lia.
  - intros N. replace (ft =? FHT_PROGRAM) with false in P4 by lia. injection P4 as <-. reflexivity.
Qed.

(** ** Relocations *)

Lemma pass1_relocs_inv ops rels : relocs_ok ops rels -> forall pre post, ops = pre ++ post ->
  exists used, rels = used ++ p1_pend (pass1 pre rels) /\
    Forall2 (reloc_moved ops) used (p1_rels (pass1 pre rels)) /\
    (forall r, In r (p1_pend (pass1 pre rels)) -> code_size pre <= roffset r) /\
    p1_bad (pass1 pre rels) = false.
Proof.
  intros (R1 & R2) pre. induction pre as [|p pre IH] using rev_ind; intros post E.
  - exists []. cbn. split; [reflexivity|]. split; [constructor|]. split; [|reflexivity].
    intros r I. destruct (R1 r I) as (a & _ & _ & _ & _ & ->). apply code_size_nonneg.
  - rewrite <- app_assoc in E. cbn [app] in E.
    destruct (IH _ E) as (used & U1 & U2 & U3 & U4). destruct (pass1_offsets pre rels) as (O1 & O2 & O3).
    rewrite pass1_snoc.
    (* offsets at or beyond this instruction *)
    assert (K : forall r, In r rels -> code_size pre <= roffset r ->
              (roffset r = code_size pre /\ marker p = false) \/ code_size (pre ++ [p]) <= roffset r).
    { intros r I Le. destruct (R1 r I) as (a & x & b & E' & M & Ro). rewrite E in E'.
      destruct (split_twice _ _ _ _ _ _ E') as [[-> ->]|[(m & -> & _)|(m & -> & _)]].
      - left. split; assumption.
      - right. rewrite Ro, !code_size_app. cbn [code_size fold_right]. fold (code_size m). pose proof (code_size_nonneg m). lia.
      - exfalso. rewrite Ro, code_size_app in Le. cbn [code_size fold_right] in Le. fold (code_size m) in Le.
        pose proof (code_size_nonneg m). pose proof (insn_length_pos (op x)). lia. }
    assert (KP : forall r, In r (p1_pend (pass1 pre rels)) ->
              (roffset r = code_size pre /\ marker p = false) \/ code_size (pre ++ [p]) <= roffset r).
    { intros r I. apply K; [rewrite U1; apply in_app_iff; right; exact I|apply U3, I]. }
    destruct (step_cases (pass1 pre rels) p) as [(A & M & X)|[(A & M & X)|(A & B & M & rs & pe & b & X & C)]]; rewrite X;
      cbn [p1_pend p1_rels p1_bad].
    + exists used. split; [exact U1|]. split; [exact U2|]. split; [|exact U4].
      intros r I. destruct (KP r I) as [(_ & N)|Y]; [congruence|exact Y].
    + exists used. split; [exact U1|]. split; [exact U2|]. split; [|exact U4].
      intros r I. destruct (KP r I) as [(_ & N)|Y]; [congruence|exact Y].
    + destruct C as [(r & Pd & Ro & -> & ->)|(N & -> & -> & ->)].
      * exists (used ++ [r]). rewrite <- app_assoc. cbn [app]. split; [congruence|]. split; [|split].
        -- apply Forall2_app; [exact U2|]. constructor; [|constructor]. split; [reflexivity|].
           exists pre, p, post. cbn [roffset]. rewrite O2. rewrite O1 in Ro. repeat split; assumption.
        -- intros r' I. assert (Lt : roffset r < roffset r').
           { apply in_split in I. destruct I as (l1 & l2 & ->). apply (R2 used r l1 r' l2). congruence. }
           destruct (KP r') as [(Y & _)|Y]; [rewrite Pd; right; exact I| |exact Y]. rewrite O1 in Ro. lia.
        -- rewrite U4. cbn [orb]. destruct pe as [|r' pe]; [reflexivity|].
           assert (Lt : roffset r < roffset r') by (apply (R2 used r [] r' pe); cbn [app]; congruence). lia.
      * exists used. split; [exact U1|]. split; [exact U2|]. split; [|exact U4].
        intros r I. destruct (KP r I) as [(Y & _)|Y]; [|exact Y]. exfalso.
        destruct (p1_pend (pass1 pre rels)) as [|r0 t] eqn:Pd; [destruct I|].
        pose proof (N r0 t eq_refl) as N0. rewrite O1 in N0.
        destruct I as [->|I]; [contradiction|].
        pose proof (U3 r0 (or_introl eq_refl)). apply in_split in I. destruct I as (l1 & l2 & ->).
        pose proof (R2 used r0 l1 r l2 ltac:(congruence)). lia.
Qed.

Theorem finalize_relocs n ops ft entry syms rels f :
  program_text ops -> (length ops < n)%nat -> relocs_ok ops rels ->
  finalize n (write_program ops) ft entry syms rels = FDone f ->
  f_badreloc f = false /\ f_extra f = false /\
  exists moved calls, f_rels f = moved ++ calls /\ Forall2 (reloc_moved ops) rels moved /\ call_relocs ops syms calls.
Proof.
  intros T L RO H. destruct (finalize_inv _ _ _ _ _ _ _ T L H) as (syms' & undef & code & rels' & e & P2 & P3 & P4 & ->).
  cbn [f_badreloc f_extra f_rels].
  destruct (pass1_relocs_inv ops rels RO ops [] (eq_sym (app_nil_r ops))) as (used & U1 & U2 & U3 & U4).
  assert (PE : p1_pend (pass1 ops rels) = []).
  { destruct (p1_pend (pass1 ops rels)) as [|r t] eqn:E; [reflexivity|exfalso].
    pose proof (U3 r (or_introl eq_refl)) as Ge. destruct RO as (R1 & _).
    destruct (R1 r) as (a & x & b & Eo & _ & Ro); [rewrite U1; apply in_app_iff; right; left; reflexivity|].
    rewrite Ro, Eo, code_size_app in Ge. cbn [code_size fold_right] in Ge. fold (code_size b) in Ge.
    pose proof (code_size_nonneg b). pose proof (insn_length_pos (op x)). lia. }
  rewrite PE in *. rewrite app_nil_r in U1. subst used.
  split; [exact U4|]. split; [reflexivity|].
  destruct (pass3_spec _ _ _ _ _ _ _ P3) as (_ & new & -> & N). exists (p1_rels (pass1 ops rels)), new.
  split; [reflexivity|]. split; [exact U2|]. intros r. rewrite N. split.
  - intros (pre & p & post & A & B & C & D & ->). destruct (undef_spec _ _ _ _ P2 (arg2 p)) as (_ & X).
    destruct (X D) as (i & Ei & Ex & Ef). exists pre, p, post, i. rewrite Ei. repeat split; try assumption.
    rewrite <- (get_label_iff ops rels). lia.
  - intros (pre & p & post & i & A & B & C & D & E & ->). exists pre, p, post.
    destruct (undef_spec _ _ _ _ P2 (arg2 p)) as (X1 & X2).
    assert (G : 0 <= table_get undef (arg2 p)) by (apply X1; exists i; exact D).
    destruct (X2 G) as (j & Ej & Exj & Efj).
    assert (i = j). { destruct (Nat.lt_trichotomy i j) as [Y|[Y|Y]]; [exfalso; exact (Efj i Y D)|exact Y|exfalso; exact (E j Y Exj)]. }
    subst j. rewrite Ej. repeat split; try assumption; try lia.
    rewrite <- (get_label_iff ops rels) in C. lia.
Qed.

(** ** Line numbers *)

Lemma pass1_lines_spec ops rels : line_records ops (p1_lines (pass1 ops rels)).
Proof.
  induction ops as [|p ops IH] using rev_ind.
  - exists []. split; [|split].
    + intros i. split; [intros []|]. intros (p & N & _). destruct i; discriminate N.
    + intros a i b j c E. destruct a; discriminate E.
    + constructor.
  - rewrite pass1_snoc. destruct (pass1_offsets ops rels) as (_ & O2 & _). destruct IH as (idx & I1 & I2 & I3).
    assert (NE : forall i q, nth_error (ops ++ [p]) i = Some q <->
              nth_error ops i = Some q \/ (i = length ops /\ q = p)).
    { intros i q. destruct (Nat.lt_ge_cases i (length ops)) as [Lt|Ge].
      - rewrite nth_error_app1 by exact Lt. split; [left; assumption|]. intros [H|[H _]]; [exact H|lia].
      - rewrite nth_error_app2 by exact Ge. split.
        + intros H. destruct (i - length ops)%nat as [|k] eqn:K.
          * right. injection H as <-. split; [lia|reflexivity].
          * destruct k; discriminate H.
        + intros [H|[-> ->]]; [|rewrite Nat.sub_diag; reflexivity].
          exfalso. assert (X : (i < length ops)%nat) by (apply nth_error_Some; congruence). lia. }
    assert (IL : forall i, In i idx -> (i < length ops)%nat).
    { intros i I. apply I1 in I. destruct I as (q & N & _). apply nth_error_Some. congruence. }
    assert (G : forall l, Forall2 (fun i l => exists q, nth_error ops i = Some q /\
               l = (arg2 q, arg1 q, code_size (instructions (firstn i ops)))) idx l ->
             Forall2 (fun i l => exists q, nth_error (ops ++ [p]) i = Some q /\
               l = (arg2 q, arg1 q, code_size (instructions (firstn i (ops ++ [p]))))) idx l).
    { intros l. apply Forall2_impl_In. intros i x I (q & N & ->). exists q. split; [apply NE; left; exact N|].
      rewrite firstn_app. replace (i - length ops)%nat with 0%nat by (specialize (IL i I); lia).
      cbn [firstn]. rewrite app_nil_r. reflexivity. }
    destruct (step_cases (pass1 ops rels) p) as [(A & M & E)|[(A & M & E)|(A & B & M & r & pe & b & E & _)]];
      rewrite E; cbn [p1_lines].
    1,3: exists idx; split; [|split; [exact I2|apply G, I3]]; intros i; rewrite I1; split;
      [intros (q & N & Q); exists q; split; [apply NE; left; exact N|exact Q]
      |intros (q & N & Q); apply NE in N; destruct N as [N|[-> ->]]; [exists q; split; assumption|]].
    + rewrite A in Q. discriminate Q.
    + contradiction.
    + exists (idx ++ [length ops]). split; [|split].
      * intros i. rewrite in_app_iff, I1. cbn [In]. split.
        -- intros [(q & N & Q)|[<-|[]]]; [exists q; split; [apply NE; left; exact N|exact Q]|].
           exists p. split; [apply NE; right; split; reflexivity|exact A].
        -- intros (q & N & Q). apply NE in N. destruct N as [N|[-> ->]]; [left; exists q; split; assumption|right; left; reflexivity].
      * intros a i bb j c H. rewrite app_comm_cons, app_assoc in H.
        destruct (snoc_split _ _ _ _ _ H) as [(-> & Hl & ->)|(c' & -> & Hl)].
        -- apply IL. rewrite <- Hl. apply in_elt.
        -- apply (I2 a i bb j c'). rewrite Hl, <- app_assoc. reflexivity.
      * apply Forall2_app; [apply G, I3|]. constructor; [|constructor]. exists p.
        split; [apply NE; right; split; reflexivity|]. rewrite firstn_app, firstn_all, Nat.sub_diag. cbn [firstn].
        rewrite app_nil_r, O2. reflexivity.
Qed.

Theorem finalize_lines n ops ft entry syms rels f :
  program_text ops -> (length ops < n)%nat ->
  finalize n (write_program ops) ft entry syms rels = FDone f -> line_records ops (f_lines f).
Proof.
  intros T L H. destruct (finalize_inv _ _ _ _ _ _ _ T L H) as (syms' & undef & code & rels' & e & P2 & P3 & P4 & ->).
  apply pass1_lines_spec.
Qed.

(** ** Label tables alone *)

Definition table_of (h : list (Z * Z)) : list (Z * Z) := fold_left (fun t kv => table_add t (fst kv) (snd kv)) h [].

Lemma table_of_id h : table_of h = h.
Proof.
  unfold table_of. assert (G : forall h t, fold_left (fun t kv => table_add t (fst kv) (snd kv)) h t = t ++ h).
  { induction h0 as [|[k v] h0 IH]; intros t; cbn [fold_left]; [symmetry; apply app_nil_r|].
    rewrite IH. unfold table_add. rewrite <- app_assoc. reflexivity. }
  apply (G h []).
Qed.

Lemma table_defined h l v : (forall k x y, In (k, x) h -> In (k, y) h -> x = y) ->
  (forall k x, In (k, x) h -> 0 <= x) -> In (l, v) h -> table_get (table_of h) l = v.
Proof.
  intros U P I. rewrite table_of_id. apply (U l); [|exact I]. apply table_get_in. apply table_get_found; [exact P|].
  exists v. exact I.
Qed.

Lemma table_unknown h l : (forall v, ~ In (l, v) h) -> table_get (table_of h) l = -1.
Proof. intros H. rewrite table_of_id. apply table_get_absent, H. Qed.

(** ** The unsigned branches are not resolved *)

Definition text_opb (o : opType) : bool :=
  (0 <=? op o) && (op o <? 256) && (0 <=? arg1 o) && (arg1 o <? 256) && (0 <=? arg2 o) && (arg2 o <? 65536) &&
  (Z.testbit (op o) 6 || (arg1 o =? 0)) && (Z.testbit (op o) 7 || (arg2 o =? 0)) && negb (op o =? oEND).

Lemma text_all l : forallb text_opb l = true -> Forall wf_op l /\ Forall (fun p => op p <> oEND) l.
Proof.
  intros H. rewrite forallb_forall in H.
  split; apply Forall_forall; intros o Ho; specialize (H o Ho); unfold text_opb in H; rewrite !andb_true_iff in H;
    destruct H as [[[[[[[[A B] C] D] E] F] G] K] L].
  - refine (conj _ (conj _ (conj _ (conj _ _)))); [lia|lia|lia| |]; intros T; rewrite T in *; cbn [orb] in *; lia.
  - lia.
Qed.

Lemma unsigned_not_resolved : exists n ops f out,
  program_text ops /\ (length ops < n)%nat /\ labels_once ops /\ code_size (instructions ops) < 65536 /\
  references_ok ops [] /\
  finalize n (write_program ops) 0 0 [] [] = FDone f /\ f_prog f = write_program out /\
  ~ Forall2 (resolved ops []) (instructions ops) out /\
  label_at ops 7 0 /\ In (mkOp oJULT 0 7) out.
Proof.
  set (ops := [mkOp oLABEL 0 7; mkOp oJULT 0 7; mkOp oEND 0 0]).
  assert (LA : label_at ops 7 0) by (exists [], (mkOp oLABEL 0 7), [mkOp oJULT 0 7; mkOp oEND 0 0]; repeat split).
  assert (LO : labels_once ops).
  { intros pre p mid q post E P Q. exfalso.
    assert (F : filter (fun x => op x =? oLABEL) ops = [mkOp oLABEL 0 7]) by reflexivity.
    rewrite E, filter_app in F. cbn [filter] in F. rewrite P, Z.eqb_refl, filter_app in F. cbn [filter] in F.
    rewrite Q, Z.eqb_refl in F. apply (f_equal (@length opType)) in F. rewrite !app_length in F. cbn in F.
    rewrite app_length in F. cbn in F. lia. }
  exists 10%nat, ops. eexists. exists [mkOp oJULT 0 7; mkOp oEND 0 0].
  split; [|split; [|split; [exact LO|split; [vm_compute; reflexivity|split; [|split; [vm_compute; reflexivity|split; [reflexivity|split; [|split; [exact LA|left; reflexivity]]]]]]]]].
  - exists [mkOp oLABEL 0 7; mkOp oJULT 0 7]. split; [reflexivity|].
    apply text_all; reflexivity.
  - cbn. lia.
  - split; [|split].
    + intros p [<-|[<-|[<-|[]]]] B.
      * exfalso. cbn in B. intuition discriminate.
      * exists (mkOp oLABEL 0 7). repeat split. left. reflexivity.
      * exfalso. cbn in B. intuition discriminate.
    + intros p [<-|[<-|[<-|[]]]] B; discriminate B.
    + intros s [].
  - intros F. inversion F as [|? ? ? ? R F']. subst. destruct R as (_ & _ & R & _).
    assert (B : branch oJULT) by (cbn; tauto). specialize (R B). cbn in R.
    pose proof (label_unique _ _ _ _ LO LA R). discriminate.
Qed.
