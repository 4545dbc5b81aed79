(** The names of the sub-functions in a listing *)

From Coq Require Import ZArith Bool String Ascii List Lia.
From Verif Require Import Words State Opcodes Machine LongModel EncodeModel EncodeSpec.
From Verif Require Import SysioModel DisModel DisSpec.
Import ListNotations.
Open Scope Z_scope.

Fixpoint startsb (w l : list Z) : bool :=
  match w, l with
  | [], _ => true
  | x :: w', y :: l' => (x =? y) && startsb w' l'
  | _, [] => false
  end.
Fixpoint containsb (w l : list Z) : bool := startsb w l || match l with [] => false | _ :: l' => containsb w l' end.
Lemma startsb_iff w : forall l, startsb w l = true <-> exists r, l = w ++ r.
Proof.
  induction w as [|x w IH]; intros l; cbn [startsb app].
  - split; [intros _; exists l; reflexivity|reflexivity].
  - destruct l as [|y l]; [split; [discriminate|intros (r & E); discriminate E]|]. rewrite andb_true_iff, Z.eqb_eq, IH. split.
    + intros (-> & r & ->). exists r. reflexivity.
    + intros (r & E). injection E as -> ->. split; [reflexivity|exists r; reflexivity].
Qed.
Lemma containsb_iff w : forall l, containsb w l = true <-> exists p r, l = p ++ w ++ r.
Proof.
  induction l as [|y l IH]; cbn [containsb]; rewrite orb_true_iff, startsb_iff.
  - split; [intros [(r & E)|H]; [exists [], r; exact E|discriminate H]|]. intros ([|x p] & r & E); [left; exists r; exact E|discriminate E].
  - rewrite IH. split.
    + intros [(r & E)|(p & r & ->)]; [exists [], r; exact E|exists (y :: p), r; reflexivity].
    + intros ([|x p] & r & E); [left; exists r; exact E|]. injection E as -> ->. right. exists p, r. reflexivity.
Qed.
Definition subb (o : opType) : bool :=
  if op o =? oSETOP then (1 <=? arg1 o) && (arg1 o <=? 14)
  else if op o =? oOSOP then (0 <=? arg1 o) && (arg1 o <=? 4)
  else if op o =? oSTRLIB then (0 <=? arg2 o) && (arg2 o <=? 26)
  else (1 <=? arg2 o) && (arg2 o <=? 43).
Definition subcheck (o : opType) : bool :=
  match line o with Some t => Bool.eqb (subb o) (negb (containsb (chars "Invalid") t)) | None => false end.
Definition upto (n : Z) : list Z := map Z.of_nat (seq 0 (Z.to_nat n)).
Lemma upto_in n x : 0 <= x < n -> In x (upto n).
Proof. intros H. apply in_map_iff. exists (Z.to_nat x). split; [lia|]. apply in_seq. lia. Qed.
Lemma sub8 : forallb (fun c => forallb (fun a => subcheck (mkOp c a 0)) (upto 256)) [oSETOP; oOSOP] = true.
Proof. vm_compute. reflexivity. Qed.
Lemma sub16 : forallb (fun c => forallb (fun a => subcheck (mkOp c 0 a)) (upto 64)) [oSTRLIB; oSYSIO] = true.
Proof. vm_compute. reflexivity. Qed.
Lemma beyond c a : In c [oSTRLIB; oSYSIO] -> 63 <= a -> line (mkOp c 0 a) = line (mkOp c 0 63).
Proof.
  intros I H. assert (L1 : (a <? MAX_XOP) = false) by (apply Z.ltb_ge; unfold MAX_XOP; lia). assert (L2 : (a <? MAX_LBOP) = false) by (apply Z.ltb_ge; unfold MAX_LBOP; lia).
  cbn [In] in I. destruct I as [<-|[<-|[]]]; unfold line; cbn [op arg1 arg2].
  - change ((oSTRLIB =? oLONGOP8) || (oSTRLIB =? oLONGOP24)) with false. cbv iota. unfold disasm. cbn [op arg1 arg2].
    assert (T : nth_error opTable (Z.to_nat oSTRLIB) = Some ("LIB  "%string, NOARG8, LBOP)) by reflexivity. rewrite T. cbn [show16]. unfold name_of. rewrite L2. reflexivity.
  - change ((oSYSIO =? oLONGOP8) || (oSYSIO =? oLONGOP24)) with false. cbv iota. unfold disasm. cbn [op arg1 arg2].
    assert (T : nth_error opTable (Z.to_nat oSYSIO) = Some ("SYSIO"%string, NOARG8, XOP)) by reflexivity. rewrite T. cbn [show16]. unfold name_of. rewrite L1. reflexivity.
Qed.
Lemma sub16_all c a : In c [oSTRLIB; oSYSIO] -> 0 <= a -> subcheck (mkOp c 0 a) = true.
Proof.
  intros I H. pose proof sub16 as Q. rewrite forallb_forall in Q. specialize (Q c I). rewrite forallb_forall in Q.
  destruct (Z.ltb_spec a 63); [apply Q, upto_in; lia|]. specialize (Q 63 (upto_in 64 63 ltac:(lia))). unfold subcheck in *. rewrite (beyond c a I) by lia.
  replace (subb (mkOp c 0 a)) with (subb (mkOp c 0 63)); [exact Q|]. unfold subb. cbn [op arg1 arg2]. cbn [In] in I.
  destruct I as [<-|[<-|[]]]; cbn -[Z.leb]; rewrite (proj2 (Z.leb_gt a _)) by lia; destruct (_ <=? a); reflexivity.
Qed.
Lemma subb_iff o : In (op o) [oSETOP; oOSOP; oSTRLIB; oSYSIO] -> subb o = true <-> subcode o.
Proof.
  intros I. unfold subcode, subb. destruct o as [c a b]. cbn [op arg1 arg2] in *. cbn [In] in I.
  destruct I as [<-|[<-|[<-|[<-|[]]]]]; cbn -[Z.leb Z.le decode_long8]; rewrite andb_true_iff, !Z.leb_le;
    (split; [intros H; repeat apply conj; intros E; first [discriminate E|exact H]|
    intros (H1 & H2 & H3 & H4 & H5 & H6); first [apply H2; reflexivity|apply H3; reflexivity|apply H4; reflexivity|apply H5; reflexivity]]).
Qed.
Lemma sub_shown o : wf_op o -> In (op o) [oSETOP; oOSOP; oSTRLIB; oSYSIO] ->
  (subcode o <-> ~ exists p r, line o = Some (p ++ chars "Invalid" ++ r)).
Proof.
  intros (W1 & W2 & W3 & W4 & W5) I.
  assert (C : subcheck o = true).
  { destruct o as [c a b]. cbn [op arg1 arg2] in *. pose proof sub8 as S8. rewrite forallb_forall in S8. cbn [In] in I.
    destruct I as [<-|[<-|[<-|[<-|[]]]]].
    - rewrite (W5 eq_refl). specialize (S8 oSETOP (or_introl eq_refl)). rewrite forallb_forall in S8. apply S8, upto_in, W2.
    - rewrite (W5 eq_refl). specialize (S8 oOSOP (or_intror (or_introl eq_refl))). rewrite forallb_forall in S8. apply S8, upto_in, W2.
    - rewrite (W4 eq_refl). apply sub16_all; [cbn; tauto|apply W3].
    - rewrite (W4 eq_refl). apply sub16_all; [cbn; tauto|apply W3]. }
  unfold subcheck in C. destruct (line o) as [t|]; [|discriminate]. apply eqb_prop in C. rewrite <- (subb_iff o I), C.
  rewrite negb_true_iff, <- not_true_iff_false, containsb_iff. split; intros H (p & r & E); apply H; exists p, r; congruence.
Qed.
Lemma osop_codes : wf_op (mkOp oOSOP 4 0) /\ subcode (mkOp oOSOP 4 0) /\ wf_op (mkOp oOSOP 5 0) /\ ~ subcode (mkOp oOSOP 5 0).
Proof.
  assert (W : forall a, 0 <= a < 256 -> wf_op (mkOp oOSOP a 0)).
  { intros a H. unfold wf_op. cbn [op arg1 arg2]. repeat apply conj; try (intros E; discriminate E); try reflexivity; try (cbv; congruence); try lia; intros; reflexivity. }
  split; [apply W; lia|]. split; [apply subb_iff; [cbn; tauto|reflexivity]|]. split; [apply W; lia|].
  intros H. apply subb_iff in H; [discriminate H|cbn; tauto].
Qed.
