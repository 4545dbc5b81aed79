(** The listing of P-code: whole files. *)

From Coq Require Import ZArith Bool String Ascii List Lia ZifyBool.
From Verif Require Import Words State Opcodes Machine LongModel EncodeModel EncodeSpec EncodeProofs.
From Verif Require Import SysioModel SysioSpec SysioText DisModel DisSpec DisProofs DisLine.
Import ListNotations.
Open Scope Z_scope.

(** ** Two lines *)

Lemma line_newline o : listable o -> exists x, line o = Some (x ++ [10]) /\ ~ In 10 x.
Proof.
  intros H. destruct (line_ok o H) as (t & T1 & T2 & _). exists (head (op o) (arg1 o) ++ t).
  split; [rewrite T1, app_assoc; reflexivity|]. intros I. apply in_app_or in I as [I|I]; [apply head_newline in I; auto | auto].
Qed.

Lemma line_inj o o' : listable o -> listable o' -> line o = line o' -> o = o'.
Proof.
  intros H H' E. destruct (line_ok o H) as (t & T1 & T2 & T3). destruct (line_ok o' H') as (u & U1 & _ & _).
  rewrite T1, U1 in E. apply some_inj in E. pose proof (heads o o' _ _ H H' E) as K.
  apply T3; [exact H' | auto|]. rewrite U1. f_equal.
  rewrite !head_key, K in E. rewrite !head_key. exact (eq_sym E) || (f_equal; apply app_inv_head in E; congruence).
Qed.

(** ** The loop *)

Lemma list_add o l n pc : wf_op o ->
  list_program (S n) pc (add_opcode o ++ l) =
  cat (cat (Some (hex8 pc ++ chars " ")) (line o)) (list_program n (u32 (pc + op_size (op o))) l).
Proof.
  intros W. pose proof W as (W1 & W2 & W3 & W4 & W5). destruct o as [c a1 a2]. cbn [op arg1 arg2] in *.
  pose proof (get_add (mkOp c a1 a2) l W) as G. unfold get_opcode in G. cbn [orb] in G.
  cbn [list_program]. unfold add_opcode in *. cbn [op arg1 arg2] in *. rewrite <- !app_assoc in *. cbn [app] in *.
  rewrite getbyte_u8 in *. assert (u8 c = c) as U by (unfold u8; apply Z.mod_small; lia). rewrite U in *.
  replace (c =? -1) with false in * by lia.
  assert (Y : Z.land (u8 (Z.land a2 255)) 255 = u8 (Z.land a2 255)).
  { rewrite land255. apply Z.mod_small. unfold u8. apply Z.mod_pos_bound. lia. }
  unfold has8, has16 in *. destruct (Z.testbit c 6) eqn:B8, (Z.testbit c 7) eqn:B16; cbn [app] in *; rewrite ?getbyte_u8 in *.
  - apply (f_equal (fun q => fst (fst (fst q)))) in G. cbn [fst] in G. rewrite Y in G. rewrite G. reflexivity.
  - apply (f_equal (fun q => fst (fst (fst q)))) in G. cbn [fst] in G. rewrite G. reflexivity.
  - apply (f_equal (fun q => fst (fst (fst q)))) in G. cbn [fst] in G. rewrite Y in G. rewrite G. reflexivity.
  - apply (f_equal (fun q => fst (fst (fst q)))) in G. cbn [fst] in G. rewrite G. reflexivity.
Qed.

Lemma list_inj : forall ps qs n m pc, Forall listable ps -> Forall listable qs -> (length ps < n)%nat -> (length qs < m)%nat ->
  exists t, list_program n pc (write_program ps) = Some t /\
  (list_program m pc (write_program qs) = Some t -> ps = qs).
Proof.
  assert (D : forall ps n pc, Forall listable ps -> (length ps < n)%nat -> exists t, list_program n pc (write_program ps) = Some t).
  { induction ps as [|p ps IH]; intros n pc H Hn; destruct n as [|n]; cbn [length] in Hn; try lia.
    - exists []. reflexivity.
    - inversion H as [|? ? H1 H2]; subst. cbn [write_program]. rewrite list_add by apply H1.
      destruct (line_newline p H1) as (x & -> & _).
      destruct (IH n (u32 (pc + op_size (op p))) H2 ltac:(lia)) as (t & ->). eexists. reflexivity. }
  induction ps as [|p ps IH]; intros qs n m pc H H' Hn Hm.
  - destruct n as [|n]; [cbn in Hn; lia|]. exists []. split; [reflexivity|]. destruct qs as [|q qs]; [reflexivity|].
    intros E. exfalso. destruct m as [|m]; [cbn in Hm; lia|]. inversion H' as [|? ? H1 H2]; subst.
    cbn [write_program] in E. rewrite list_add in E by apply H1. destruct (line q); [|discriminate]. cbn [cat] in E.
    destruct (list_program m (u32 (pc + op_size (op q))) (write_program qs)); [|discriminate]. cbn [cat] in E. apply some_inj in E. discriminate.
  - destruct n as [|n]; [cbn in Hn; lia|]. inversion H as [|? ? H1 H2]; subst.
    destruct (D (p :: ps) (S n) pc H Hn) as (t & T). exists t. split; [exact T|]. intros E.
    destruct qs as [|q qs].
    { destruct m as [|m]; [cbn in Hm; lia|]. cbn in E. apply some_inj in E. subst t. exfalso.
      cbn [write_program] in T. rewrite list_add in T by apply H1. destruct (line p); [|discriminate]. cbn [cat] in T.
      destruct (list_program n (u32 (pc + op_size (op p))) (write_program ps)); [|discriminate]. cbn [cat] in T. apply some_inj in T. discriminate. }
    destruct m as [|m]; [cbn in Hm; lia|]. inversion H' as [|? ? H1' H2']; subst. cbn [write_program length] in *.
    rewrite list_add in E by apply H1'. rewrite list_add in T by apply H1.
    destruct (line_newline p H1) as (x & X1 & X2). destruct (line_newline q H1') as (y & Y1 & Y2).
    rewrite X1 in T. rewrite Y1 in E.
    destruct (list_program n _ (write_program ps)) as [r|] eqn:R in T; [|discriminate].
    destruct (list_program m _ (write_program qs)) as [r'|] eqn:R' in E; [|discriminate].
    cbn [cat] in T, E. rewrite <- T in E. apply some_inj in E. rewrite <- !app_assoc in E.
    apply app_inv_head in E. apply app_inv_head in E. cbn [app] in E. apply split_at in E as [E1 E2]; [|assumption|assumption]. subst y r'.
    assert (p = q) as -> by (apply line_inj; auto; congruence).
    destruct (IH qs n m (u32 (pc + op_size (op q))) H2 H2' ltac:(lia) ltac:(lia)) as (t' & Q1 & Q2).
    rewrite Q1 in R. injection R as ->. rewrite (Q2 R'). reflexivity.
Qed.

(** Every file has a listing. *)
Lemma line_total o : 0 <= op o < 256 -> 0 <= arg1 o < 256 -> 0 <= arg2 o < 65536 -> exists t, line o = Some t.
Proof.
  intros H1 H2 H3. unfold line. destruct ((op o =? oLONGOP8) || (op o =? oLONGOP24)).
  - unfold disasm_long. cbv zeta.
    match goal with |- context [match ?x with None => _ | Some _ => _ end] => destruct x as [[? ?]|] end; eauto.
  - unfold disasm. destruct (nth_error opTable (Z.to_nat (op o))) as [[[n f8] f16]|] eqn:T.
    2:{ apply nth_error_None in T. assert (length opTable = 256%nat) as L by reflexivity. rewrite L in T. lia. }
    assert (N : forall t limit i inv, 0 <= i -> limit <= Z.of_nat (length t) -> exists x, name_of t limit i inv = Some x).
    { intros t limit i inv Hi Hl. unfold name_of. destruct (i <? limit) eqn:E; [|eauto].
      destruct (nth_error t (Z.to_nat i)) eqn:X; [cbn; eauto|]. apply nth_error_None in X. lia. }
    assert (S8 : exists x, show8 f8 (arg1 o) = Some x).
    { destruct f8; cbn [show8]; eauto; apply N; try lia; try (apply Z.land_nonneg; lia); vm_compute; congruence. }
    assert (S16 : exists x, show16 f16 (arg2 o) = Some x).
    { destruct f16; cbn [show16]; eauto; apply N; try lia; vm_compute; congruence. }
    destruct S8 as (x & X), S16 as (y & Y).
    cbv zeta. destruct (has8 (op o)), (has16 (op o)), f16; rewrite ?X, ?Y; cbn [cat]; eauto.
Qed.

Lemma getbyte_range l b r : Forall byte l -> getbyte l = (b, r) -> -1 <= b < 256 /\ Forall byte r /\ (length r <= length l)%nat /\ (b <> -1 -> (length r < length l)%nat).
Proof.
  intros H E. destruct l as [|c l]; cbn in E; injection E as <- <-.
  - repeat split; auto; lia.
  - inversion H; subst. unfold u8. pose proof (Z.mod_pos_bound c 256 ltac:(lia)). cbn [length]. repeat split; auto; lia.
Qed.

Lemma list_total : forall n l pc, Forall byte l -> (length l < n)%nat -> exists t, list_program n pc l = Some t.
Proof.
  induction n as [|n IH]; intros l pc H Hn; [lia|]. cbn [list_program].
  destruct (getbyte l) as [c l1] eqn:E1. apply getbyte_range in E1 as (C1 & F1 & L1 & M1); [|exact H].
  destruct (c =? -1) eqn:EC; [eauto|].
  assert (A1 : exists a1 l2, (if has8 c then let '(x, r) := getbyte l1 in (u8 x, r) else (0, l1)) = (a1, l2) /\ 0 <= a1 < 256 /\ Forall byte l2 /\ (length l2 <= length l1)%nat).
  { destruct (has8 c); [|exists 0, l1; repeat split; auto; lia]. destruct (getbyte l1) as [x r] eqn:E. apply getbyte_range in E as (X1 & X2 & X3 & _); [|exact F1].
    exists (u8 x), r. split; [reflexivity|]. split; [unfold u8; apply Z.mod_pos_bound; lia | auto]. }
  destruct A1 as (a1 & l2 & -> & A1 & F2 & L2).
  assert (A2 : exists a2 l3, (if has16 c then let '(h, r) := getbyte l2 in let '(x, r') := getbyte r in (u16 (Z.lor (u16 (Z.shiftl h 8)) x), r') else (0, l2)) = (a2, l3)
     /\ 0 <= a2 < 65536 /\ Forall byte l3 /\ (length l3 <= length l2)%nat).
  { destruct (has16 c); [|exists 0, l2; repeat split; auto; lia]. destruct (getbyte l2) as [h r] eqn:E. apply getbyte_range in E as (X1 & X2 & X3 & _); [|exact F2].
    destruct (getbyte r) as [x r'] eqn:E'. apply getbyte_range in E' as (Y1 & Y2 & Y3 & _); [|exact X2].
    eexists _, r'. split; [reflexivity|]. split; [unfold u16; apply Z.mod_pos_bound; lia | split; [auto | lia]]. }
  destruct A2 as (a2 & l3 & -> & A2 & F3 & L3).
  destruct (line_total (mkOp c a1 a2)) as (t & ->); cbn [op arg1 arg2]; try lia.
  destruct (IH l3 (u32 (pc + op_size c)) F3 ltac:(lia)) as (t' & ->). cbn. eauto.
Qed.

(** Invalid opcodes *)
Lemma invalid_shown o : wf_op o -> ~ In (op o) [oLONGOP8; oLONGOP24; oLABEL; oLINE] ->
  (executed (op o) <-> ~ exists r, line o = Some (chars "        Invalid Opcode" ++ r)).
Proof.
  intros (W1 & W2 & W3 & _) NI. rewrite executed_b by lia. destruct o as [c a1 a2]. cbn [op arg1 arg2] in *.
  cbn [In] in NI. assert ((c =? oLONGOP8) = false) as E1 by (apply Z.eqb_neq; intuition).
  assert ((c =? oLONGOP24) = false) as E2 by (apply Z.eqb_neq; intuition).
  assert ((c =? oLABEL) = false) as E3 by (apply Z.eqb_neq; intuition).
  assert ((c =? oLINE) = false) as E4 by (apply Z.eqb_neq; intuition).
  pose proof (rows c W1) as R. unfold row in R. destruct (line_total (mkOp c a1 a2)) as (tx & TX); cbn [op arg1 arg2]; try lia.
  rewrite TX. unfold line in TX. cbn [op] in TX. rewrite E1, E2 in TX. cbn [orb] in TX.
  destruct (nth_error opTable (Z.to_nat c)) as [[[n f8] f16]|] eqn:T; [|discriminate].
  rewrite E1, E2, E3, E4 in R. cbn [orb] in R. apply andb_true_iff in R as [_ R]. apply andb_true_iff in R as [R F].
  apply eqb_prop in R. rewrite R. rewrite negb_true_iff.
  rewrite (disasm_plain c n f8 f16 a1 a2 T E1) in TX by (intros ->; discriminate).
  unfold plain in TX. destruct (if has8 c then show8 f8 a1 else Some []) as [x|]; [|discriminate].
  destruct (if has16 c then show16 f16 a2 else Some []) as [y|]; [|discriminate]. apply some_inj in TX. subst tx.
  assert (HD : head c a1 = chars "        " ++ chars n ++ chars " ").
  { unfold head. rewrite E1, T. destruct f16; try reflexivity; discriminate. }
  rewrite HD. split.
  - intros NE (r & Er). apply some_inj in Er. change (chars "        Invalid Opcode") with (chars "        " ++ chars invOp) in Er.
    rewrite <- !app_assoc in Er. apply app_inv_head in Er.
    assert (X : forallb (fun e => negb (prefixb (chars (fst (fst e)) ++ chars " ") (chars invOp)) && (String.eqb (fst (fst e)) invOp || negb (prefixb (chars invOp) (chars (fst (fst e)) ++ chars " ")))) opTable = true)
      by (vm_compute; reflexivity).
    rewrite forallb_forall in X. specialize (X _ (nth_error_In _ _ T)). cbn [fst] in X. rewrite NE in X. cbn [orb] in X.
    apply andb_true_iff in X as [X1 X2]. apply negb_true_iff in X1, X2.
    rewrite (app_assoc (chars n)) in Er. apply prefix_or in Er as [Er|Er]; congruence.
  - intros NX. destruct (String.eqb n invOp) eqn:NE; [|reflexivity]. exfalso. apply NX. apply String.eqb_eq in NE. subst n.
    change (chars "        Invalid Opcode") with (chars "        " ++ chars invOp). eexists. rewrite <- !app_assoc. reflexivity.
Qed.

(** The address at an instruction *)
Lemma list_address ps : forall p qs n pc, 0 <= pc < 4294967296 -> Forall listable (ps ++ p :: qs) -> (length (ps ++ p :: qs) < n)%nat ->
  exists before l after, list_program n pc (write_program (ps ++ p :: qs)) =
    Some (before ++ hex8 (u32 (pc + Z.of_nat (length (write_program ps)))) ++ [32] ++ l ++ after) /\ line p = Some l /\
    list_program n pc (write_program ps) = Some before.
Proof.
  induction ps as [|q ps IH]; intros p qs n pc Hpc H Hn; destruct n as [|n]; cbn [app length] in *; try lia;
    inversion H as [|? ? H1 H2]; subst; cbn [write_program]; rewrite list_add by apply H1.
  - destruct (list_inj qs qs n n (u32 (pc + op_size (op p))) H2 H2 ltac:(lia) ltac:(lia)) as (t & -> & _).
    destruct (line_newline p H1) as (x & -> & _). exists [], (x ++ [10]), t. cbn [cat write_program length].
    replace (u32 (pc + Z.of_nat 0)) with pc by (unfold u32; rewrite Z.mod_small; lia).
    change (chars " ") with [32]. rewrite <- !app_assoc. auto.
  - destruct (IH p qs n (u32 (pc + op_size (op q)))) as (b & l & a & E1 & E2 & E3); [unfold u32; apply Z.mod_pos_bound; lia | exact H2 | lia |].
    destruct (line_newline q H1) as (x & E & _). rewrite E1, E. exists (hex8 pc ++ [32] ++ (x ++ [10]) ++ b), l, a.
    split; [|split; [exact E2|]].
    + cbn [cat]. rewrite app_length, Nat2Z.inj_add, add_opcode_size.
      assert (u32 (u32 (pc + op_size (op q)) + Z.of_nat (length (write_program ps))) = u32 (pc + (op_size (op q) + Z.of_nat (length (write_program ps))))) as ->
        by (unfold u32; rewrite Zplus_mod_idemp_l; f_equal; lia).
      change (chars " ") with [32]. rewrite <- !app_assoc. reflexivity.
    + rewrite list_add by apply H1. rewrite E, E3. cbn [cat]. change (chars " ") with [32]. rewrite <- !app_assoc. reflexivity.
Qed.
