(** The machine executes the resolved code as the relation [cruns] says. *)

From Coq Require Import ZArith Bool List Lia ZifyBool.
From Verif Require Import Words WordLemmas State Opcodes SetModel LongModel Machine OptSpec EncodeModel EncodeSpec CodeLemmas ExprModel ExprSpec StmtModel StmtSpec
  ActModel ActSpec BlockModel BlockSpec BlockCall RealPc.
From Verif Require Import VmSpec.
From Verif Require FinalModel FinalSpec FinalProofs FinalMain.
From Verif Require Import StmtSpec.
Import ListNotations.
Open Scope Z_scope.

(** ** Single instructions *)

Lemma jump_pc s a p t y : is_jump p = true ->
  match exec_insn (with_pc s 0) (mkOp (op p) (arg1 p) 0) with
  | Ok s' => exec_insn (with_pc s a) (mkOp (op p) y t) = Ok (with_pc s' (if pc s' =? 0 then t else u16 (a + 3)))
  | _ => True
  end.
Proof.
  unfold is_jump. rewrite existsb_exists. intros (o & I & E). apply Z.eqb_eq in E. rewrite E. clear E.
  repeat destruct I as [<-|I]; try destruct I;
    (match goal with |- context [exec_insn _ (mkOp ?o _ 0)] => let x := eval vm_compute in (decode_op24 o) in
       assert (X : forall s y i, exec_insn s (mkOp o y i) = match x with Some _ => pexec24 s o i | None => UB end) by reflexivity end;
     cbv beta iota in X; rewrite !X; clear X);
    (match goal with |- context [pexec24 _ ?o _] => unfold pexec24; let x := eval vm_compute in (decode_op24 o) in change (decode_op24 o) with x end; cbv beta iota);
    unfold jumpz, sjump2, jump2, jump; rewrite ?pc_pop.
  all: try reflexivity.
  all: destruct (pop s) as [[v s1]|]; cbn [bindo opc2]; try exact I; rewrite ?pc_pop.
  all: try (destruct (pop s1) as [[v2 s2]|]; cbn [bindo opc2]; try exact I).
  all: cbn [pc with_pc]; match goal with |- context [if ?b then 0 else u16 (0 + 3)] => destruct b end; reflexivity.
Qed.

Lemma byte_all (P : Z -> bool) : forallb P (map Z.of_nat (seq 0 256)) = true -> forall o, 0 <= o < 256 -> P o = true.
Proof. intros H o R. rewrite forallb_forall in H. apply H. apply in_map_iff. exists (Z.to_nat o). split; [lia|]. apply in_seq. lia. Qed.
Definition jump_kind (o : op24) : bool :=
  match o with JMP | JEQUZ | JNEQZ | JLTZ | JGTEZ | JGTZ | JLTEZ | JEQU | JNEQ | JLT | JGTE | JGT | JLTE | JULT | JUGTE | JUGT | JULTE => true | _ => false end.
Lemma decode24_jump o k : 0 <= o < 256 -> decode_op24 o = Some k -> jump_kind k = existsb (Z.eqb o) jump_codes || negb (has16 o) || has8 o && jump_kind k.
Proof.
  intros R. assert (X : match decode_op24 o with Some k => Bool.eqb (jump_kind k) (existsb (Z.eqb o) jump_codes || negb (has16 o) || has8 o && jump_kind k) | None => true end = true).
  { revert o R. apply byte_all. vm_compute. reflexivity. }
  intros E. rewrite E in X. apply Bool.eqb_prop, X.
Qed.
Lemma decode32_call o : 0 <= o < 256 -> decode_op32 o = Some PCAL -> o = oPCAL.
Proof.
  intros R. assert (X : match decode_op32 o with Some PCAL => o =? oPCAL | _ => true end = true).
  { revert o R. apply byte_all. vm_compute. reflexivity. }
  intros E. rewrite E in X. lia.
Qed.
Lemma decode8_ret o : 0 <= o < 256 -> decode_op8 o = Some RET -> o = oRET.
Proof.
  intros R. assert (X : match decode_op8 o with Some RET => o =? oRET | _ => true end = true).
  { revert o R. apply byte_all. vm_compute. reflexivity. }
  intros E. rewrite E in X. lia.
Qed.

Lemma at_pc_ok a o s' : at_pc a o = Ok s' -> exists t, o = Ok t /\ s' = with_pc t a.
Proof. destruct o; cbn; intros H; try discriminate H. injection H as <-. eauto. Qed.
Lemma next_pc n o a s' : next n o = Ok s' -> next n (at_pc a o) = Ok (with_pc s' (u16 (a + n))).
Proof. destruct o; cbn; intros H; try discriminate H. injection H as <-. reflexivity. Qed.
Lemma plain_pc s a p s' : 0 <= op p < 256 -> is_jump p = false -> is_call p = false -> exec_insn s p = Ok s' ->
  exec_insn (with_pc s a) p = Ok (with_pc s' (u16 (a + insn_length (op p)))).
Proof.
  intros R J C E. unfold exec_insn in *. unfold insn_length. fold (has8 (op p)). fold (has16 (op p)). unfold is_call in C.
  destruct (has8 (op p)) eqn:H8, (has16 (op p)) eqn:H16.
  - unfold pexec32 in *. destruct (decode_op32 (op p)) as [k|] eqn:D; [|discriminate E].
    assert (N : k <> PCAL) by (intros ->; apply decode32_call in D; lia).
    destruct k; try congruence; rewrite pc_exec32 by exact N; apply next_pc; exact E.
  - unfold pexec16 in *. cbn [pc with_pc]. replace (with_pc (with_pc s a) (u16 (a + 2))) with (with_pc (with_pc s (u16 (pc s + 2))) (u16 (a + 2))) by reflexivity.
    destruct (decode_op16 (op p)) as [[]|]; try discriminate E.
    all: first [rewrite pc_push, ret_opc, E|rewrite pc_set, E|rewrite pc_long, E]; reflexivity.
  - unfold pexec24 in *. destruct (decode_op24 (op p)) as [k|] eqn:D; [|discriminate E].
    pose proof (decode24_jump _ _ R D) as Jk. rewrite H8, H16 in Jk. cbn [negb andb orb] in Jk. unfold is_jump in J. rewrite J in Jk. cbn in Jk.
    destruct k; try discriminate Jk; rewrite pc_exec24; apply next_pc; exact E.
  - unfold pexec8 in *. destruct (decode_op8 (op p)) as [k|] eqn:D; [|discriminate E].
    assert (N : k <> RET) by (intros ->; apply decode8_ret in D; lia).
    destruct k; try congruence; try discriminate E; rewrite pc_exec8 by (try exact N; discriminate); apply next_pc; exact E.
Qed.
Lemma ret_pc s a x y : exec_insn (with_pc s a) (mkOp oRET x y) = exec_insn s (mkOp oRET x y).
Proof.
  change (exec_ret (with_pc s a) = exec_ret s). unfold exec_ret. rewrite pc_pop. destruct (pop s) as [[v s1]|]; cbn [bindo opc2]; [|reflexivity].
  replace (with_lsp (with_pc s1 a) (v / 256)) with (with_pc (with_lsp s1 (v / 256)) a) by reflexivity. rewrite pc_pop.
  destruct (pop (with_lsp s1 (v / 256))) as [[v2 s2]|]; cbn [bindo opc2]; [|reflexivity].
  replace (with_csp (with_pc s2 a) v2) with (with_pc (with_csp s2 v2) a) by reflexivity. rewrite pc_pop.
  destruct (pop (with_csp s2 v2)) as [[v3 s3]|]; cbn [bindo opc2]; [|reflexivity]. reflexivity.
Qed.
Lemma pcal_pc s a lv l b s' : exec_insn (with_pc s a) (mkOp oPCAL lv l) = Ok s' -> exec_insn (with_pc s a) (mkOp oPCAL lv b) = Ok (with_pc s' b).
Proof.
  change (match procedure_call (with_pc s a) lv with Ok s => Ok (with_pc s l) | Err e s => Err e (with_pc s l) | r => r end = Ok s' ->
    match procedure_call (with_pc s a) lv with Ok s => Ok (with_pc s b) | Err e s => Err e (with_pc s b) | r => r end = Ok (with_pc s' b)).
  destruct (procedure_call (with_pc s a) lv); intros H; try discriminate H. injection H as <-. reflexivity.
Qed.

(** ** The code in the program image *)

Section Image.
  Variables (ops : list opType) (syms : list FinalModel.symbol) (code : list Z) (maxpc : Z).
  Hypothesis T : FinalSpec.program_text ops.
  Hypothesis U : FinalSpec.labels_once ops.
  Hypothesis Sz : FinalSpec.code_size (FinalSpec.instructions ops) < 65536.
  Hypothesis R : exists out, code = write_program out /\ Forall2 (FinalSpec.resolved ops syms) (FinalSpec.instructions ops) out.
  Hypothesis M : Z.of_nat (length code) <= maxpc.

  Lemma text_wf p : In p ops -> wf_op p.
  Proof.
    intros I. destruct T as (body & -> & W & _). apply in_app_iff in I. rewrite Forall_forall in W.
    destruct I as [I|[<-|[]]]; [apply W, I|apply FinalMain.wf_end].
  Qed.
  Lemma address_le i : 0 <= address_of ops i <= FinalSpec.code_size (FinalSpec.instructions ops).
  Proof.
    unfold address_of. rewrite <- (firstn_skipn i ops) at 3. rewrite FinalProofs.instructions_app, FinalProofs.code_size_app.
    pose proof (FinalProofs.code_size_nonneg (FinalSpec.instructions (firstn i ops))). pose proof (FinalProofs.code_size_nonneg (FinalSpec.instructions (skipn i ops))). lia.
  Qed.
  Lemma u16_address i : u16 (address_of ops i) = address_of ops i.
  Proof. pose proof (address_le i). apply u16_small. lia. Qed.

  Lemma image_fetch i p : nth_error ops i = Some p -> FinalSpec.marker p = false ->
    exists q, FinalSpec.resolved ops syms p q /\ fetch code (address_of ops i) = Some q /\ address_of ops i < maxpc.
  Proof.
    intros N Mk. destruct R as (out & Ec & F). destruct (nth_error_split _ _ N) as (l1 & l2 & E & L).
    assert (I : FinalSpec.instructions ops = FinalSpec.instructions l1 ++ p :: FinalSpec.instructions l2).
    { rewrite E, FinalProofs.instructions_app. cbn [FinalSpec.instructions filter]. rewrite Mk. reflexivity. }
    pose proof F as F0. rewrite I in F. destruct (FinalMain.Forall2_split _ _ _ _ _ F) as (o1 & q & o2 & Eo & F1 & X & F2).
    assert (A : address_of ops i = Z.of_nat (length (write_program o1))).
    { unfold address_of. rewrite E, <- L, firstn_app, firstn_all, Nat.sub_diag, app_nil_r by lia.
      rewrite FinalProofs.write_size, (FinalMain.resolved_size _ _ _ _ F1). reflexivity. }
    exists q. split; [exact X|]. rewrite Ec, Eo, FinalMain.write_app. cbn [write_program]. rewrite A.
    assert (Wp : wf_op p) by (apply text_wf; apply (nth_error_In _ _ N)).
    split.
    - apply fetch_add. apply (FinalMain.resolved_wf ops syms p q Sz Wp X).
    - rewrite Ec, Eo, FinalMain.write_app, app_length in M.
      cbn [write_program] in M. rewrite app_length in M.
      assert (1 <= Z.of_nat (length (add_opcode q))); [|lia].
      pose proof (FinalProofs.write_size [q]) as Y. cbn [write_program FinalSpec.code_size fold_right] in Y. rewrite app_nil_r in Y.
      pose proof (FinalProofs.insn_length_pos (op q)). lia.
  Qed.
  Lemma image_label l j : labelled ops l j -> FinalSpec.label_at ops l (address_of ops j).
  Proof.
    intros N. destruct (nth_error_split _ _ N) as (l1 & l2 & E & L). exists l1, (mkOp oLABEL 0 l), l2.
    split; [exact E|]. split; [reflexivity|]. split; [reflexivity|]. unfold address_of.
    rewrite E, <- L, firstn_app, firstn_all, Nat.sub_diag, app_nil_r by lia. reflexivity.
  Qed.

  (** ** The machine does the same *)
  Definition becomes (s s' : st) : Prop := exists n, forall m, run (n + m) code maxpc s = run m code maxpc s'.
  Lemma becomes_refl s : becomes s s.
  Proof. exists 0%nat. reflexivity. Qed.
  Lemma becomes_trans a b c : becomes a b -> becomes b c -> becomes a c.
  Proof. intros (n & H) (n' & H'). exists (n + n')%nat. intros m. rewrite <- Nat.add_assoc, H. apply H'. Qed.
  Lemma becomes_one s a q s' : a < maxpc -> fetch code a = Some q -> exec_insn (with_pc s a) q = Ok s' -> becomes (with_pc s a) s'.
  Proof.
    intros L F E. exists 1%nat. intros m. cbn [run Nat.add]. unfold execute. cbn [pc with_pc].
    replace (maxpc <=? a) with false by lia. rewrite F. cbn [bindo]. rewrite E. reflexivity.
  Qed.

  Lemma jump_branch p : is_jump p = true -> FinalSpec.branch (op p).
  Proof. unfold is_jump. rewrite existsb_exists. intros (o & I & E). apply Z.eqb_eq in E. rewrite E. exact I. Qed.
  Lemma branch_jump p : FinalSpec.branch (op p) -> is_jump p = true.
  Proof. unfold is_jump. rewrite existsb_exists. intros B. exists (op p). split; [exact B|apply Z.eqb_refl]. Qed.
  Lemma branch_length o : FinalSpec.branch o -> insn_length o = 3.
  Proof. intros B. unfold FinalSpec.branch in B. cbn [In] in B. repeat (destruct B as [<-|B]; [reflexivity|]). destruct B. Qed.
  Lemma next_address i p : nth_error ops i = Some p -> FinalSpec.marker p = false -> u16 (address_of ops i + insn_length (op p)) = address_of ops (S i).
  Proof. intros N Mk. pose proof (address_next ops i p N) as A. rewrite Mk in A. rewrite <- A. apply u16_address. Qed.

  Lemma real_step a b : cstep ops a b ->
    becomes (with_pc (snd a) (address_of ops (fst (fst a)))) (with_pc (snd b) (address_of ops (fst (fst b)))).
  Proof.
    intros [i s j s' ks H|i s lv l s' j ks N E L|i s x y s' k ks N E P]; cbn [fst snd].
    - inversion H as [i0 s0 p N P|i0 s0 p s1 N P E C|i0 s0 p l s1 j0 N P E L]; subst.
      + rewrite (address_next ops i p N). change (FinalSpec.marker p) with (is_pseudo p). rewrite P, Z.add_0_r. apply becomes_refl.
      + destruct (image_fetch i p N P) as (q & X & F & A).
        unfold flow_op in E. destruct (is_jump p) eqn:J.
        * pose proof (jump_branch p J) as B. destruct X as (X1 & X2 & X3 & _).
          pose proof (jump_pc s (address_of ops i) p (arg2 q) (arg1 q) J) as K.
          destruct (exec_insn (with_pc s 0) _) as [t| | | |]; try discriminate E.
          destruct (pc t =? 0); [discriminate E|]. injection E as <-.
          apply (becomes_one s _ q _ A F). destruct q as [oq a1 a2]. cbn [op arg1 arg2] in *. subst oq. rewrite K. do 2 f_equal.
          rewrite <- (next_address i p N P), (branch_length _ B). reflexivity.
        * assert (q = p). { destruct X as (_ & _ & _ & _ & X5). apply X5.
            - intros B. rewrite (branch_jump p B) in J. discriminate J.
            - intros B. unfold is_call in C. rewrite B in C. discriminate C. }
          subst q. assert (E2 : exec_insn s p = Ok s') by (destruct (_ && _); [discriminate E|]; destruct (exec_insn s p); try discriminate E; congruence).
          apply (becomes_one s _ p _ A F). rewrite <- (next_address i p N P).
          apply plain_pc; try assumption. apply text_wf. apply (nth_error_In _ _ N).
      + destruct (image_fetch i p N P) as (q & X & F & A).
        unfold flow_op in E. destruct (is_jump p) eqn:J; [|destruct (_ && _); [discriminate E|]; destruct (exec_insn s p); discriminate E].
        pose proof (jump_branch p J) as B. destruct X as (X1 & X2 & X3 & _).
        pose proof (jump_pc s (address_of ops i) p (arg2 q) (arg1 q) J) as K.
        destruct (exec_insn (with_pc s 0) _) as [t| | | |]; try discriminate E.
        destruct (pc t =? 0); [|discriminate E]. injection E as <- <-.
        apply (becomes_one s _ q _ A F). destruct q as [oq a1 a2]. cbn [op arg1 arg2] in *. subst oq. rewrite K. do 2 f_equal.
        apply (FinalProofs.label_unique ops (arg2 p)); [exact U|exact (X3 B)|apply image_label; exact L].
    - destruct (image_fetch i _ N eq_refl) as (q & (X1 & X2 & _ & X4 & _) & F & A). cbn [op arg1 arg2] in *.
      apply (becomes_one s _ q _ A F). destruct q as [oq a1 a2]. cbn [op arg1 arg2] in *. subst oq a1.
      assert (a2 = address_of ops j) as ->.
      { destruct (X4 eq_refl) as [Y|(Y & _)].
        - apply (FinalProofs.label_unique ops l); [exact U|exact Y|apply image_label; exact L].
        - exfalso. apply Y. exists (mkOp oLABEL 0 l). split; [apply (nth_error_In _ _ L)|split; reflexivity]. }
      apply (pcal_pc s _ lv l). exact E.
    - destruct (image_fetch i _ N eq_refl) as (q & (_ & _ & _ & _ & X5) & F & A). cbn [op arg1 arg2] in *.
      assert (q = mkOp oRET x y) as -> by (apply X5; [|discriminate]; intros B; apply (branch_jump (mkOp oRET x y)) in B; discriminate B).
      apply (becomes_one s _ _ _ A F). rewrite ret_pc, E. f_equal. destruct s' as [m1 c1 sp1 csp1 fp1 pc1 lsp1 fch1]. cbn in P. subst pc1.
      unfold with_pc. cbn. f_equal. change (address_of ops k mod 65536) with (u16 (address_of ops k)). apply u16_address.
  Qed.
  Lemma real_runs a b : cruns ops a b ->
    becomes (with_pc (snd a) (address_of ops (fst (fst a)))) (with_pc (snd b) (address_of ops (fst (fst b)))).
  Proof. intros H. induction H as [a|a b c S0 _ IH]; [apply becomes_refl|]. eapply becomes_trans; [apply real_step; exact S0|exact IH]. Qed.
  Lemma real_end i s n : nth_error ops i = Some (mkOp oEND 0 0) ->
    run (S n) code maxpc (with_pc s (address_of ops i)) = Some (Err eEXIT (with_pc s (address_of ops i))).
  Proof.
    intros N. destruct (image_fetch i _ N eq_refl) as (q & (_ & _ & _ & _ & X5) & F & A).
    assert (q = mkOp oEND 0 0) as -> by (apply X5; [|discriminate]; intros B; apply (branch_jump (mkOp oEND 0 0)) in B; discriminate B).
    cbn [run]. unfold execute. cbn [pc with_pc]. replace (maxpc <=? address_of ops i) with false by lia. rewrite F. reflexivity.
  Qed.
End Image.

Theorem machine_runs n ops ft entry syms rels f maxpc :
  FinalSpec.program_text ops -> FinalSpec.labels_once ops -> FinalSpec.code_size (FinalSpec.instructions ops) < 65536 ->
  (forall p, In p ops -> ~ FinalSpec.unsigned_branch (op p)) -> (length ops < n)%nat ->
  FinalModel.finalize n (write_program ops) ft entry syms rels = FinalModel.FDone f -> Z.of_nat (length (FinalModel.f_prog f)) <= maxpc ->
  forall i ks s j ks' s', cruns ops (i, ks, s) (j, ks', s') ->
  exists k, forall m, run (k + m) (FinalModel.f_prog f) maxpc (with_pc s (address_of ops i)) = run m (FinalModel.f_prog f) maxpc (with_pc s' (address_of ops j)).
Proof.
  intros T U Sz NU L F M i ks s j ks' s' H.
  exact (real_runs ops syms (FinalModel.f_prog f) maxpc T U Sz (FinalMain.finalize_resolved _ _ _ _ _ _ _ T L Sz NU F) M _ _ H).
Qed.
