(** Proofs about the heap *)

From Coq Require Import ZArith Bool List Lia ZifyBool.
From Verif Require Import Words State WordLemmas StateLemmas HeapModel HeapSpec.
Import ListNotations.
Open Scope Z_scope.
Local Ltac Zify.zify_post_hook ::= Z.div_mod_to_equations.

Definition wd (s : st) (i : Z) : Z := u16 (mem s i).

Definition inw (s : st) (a k : Z) : Prop := a mod 2 = 0 /\ 0 <= a / 2 + k < c_ssz (cf s) / 2.

Lemma hget_v s a k : inw s a k -> hget s a k = HV (wd s (a / 2 + k)).
Proof.
  intros [H1 H2]. unfold hget. rewrite H1. cbn [Z.eqb].
  rewrite rd_in; [reflexivity | apply in_word_iff; exact H2].
Qed.

Lemma hput_v s a k v : inw s a k -> hput s a k v = HV (with_mem s (upd (mem s) (a / 2 + k) (u16 v))).
Proof.
  intros [H1 H2]. unfold hput. rewrite H1. cbn [Z.eqb].
  rewrite wr_in; [reflexivity | apply in_word_iff; exact H2].
Qed.

Lemma heap_bound_S : heap_bound = S (S (Z.to_nat 65535)).
Proof. unfold heap_bound. lia. Qed.

Lemma wd_range s i : 0 <= wd s i < 65536.
Proof. apply u16_range. Qed.

Lemma remove_single s c :
  inw s c 4 -> inw s c 5 -> wd s (c / 2 + 4) = 0 -> wd s (c / 2 + 5) = 0 ->
  remove_chunk s c = HV (with_fch s NULL).
Proof.
  intros I4 I5 W4 W5. unfold remove_chunk, prev, next.
  rewrite (hget_v s c 4 I4), (hget_v s c 5 I5), W4, W5. reflexivity.
Qed.

Lemma add_empty s c :
  fch s = NULL -> inw s c 4 -> inw s c 5 ->
  add_chunk s c = HV (with_fch (with_mem s (upd (upd (mem s) (c / 2 + 4) 0) (c / 2 + 5) 0)) c).
Proof.
  intros F I4 I5. unfold add_chunk. rewrite heap_bound_S, F. cbn [add_loop].
  change (NULL =? NULL) with true. cbv iota. unfold set_prev, set_next.
  rewrite hput_v by exact I4. cbn [hbind]. rewrite hput_v by exact I5. reflexivity.
Qed.

Lemma forward_v s c : inw s c 0 -> forward s c = HV (wd s (c / 2) mod 32768).
Proof. intros I. unfold forward. rewrite hget_v, Z.add_0_r by exact I. reflexivity. Qed.
Lemma in_use_v s c : inw s c 0 -> in_use s c = HV (32768 <=? wd s (c / 2)).
Proof. intros I. unfold in_use. rewrite hget_v, Z.add_0_r by exact I. reflexivity. Qed.
Lemma back_v s c : inw s c 1 -> back s c = HV (wd s (c / 2 + 1) mod 32768).
Proof. intros I. unfold back. rewrite hget_v by exact I. reflexivity. Qed.
Lemma address_v s c : inw s c 2 -> address s c = HV (wd s (c / 2 + 2)).
Proof. intros I. unfold address. rewrite hget_v by exact I. reflexivity. Qed.
Lemma next_v s c : inw s c 5 -> next s c = HV (wd s (c / 2 + 5)).
Proof. intros I. unfold next. rewrite hget_v by exact I. reflexivity. Qed.

Lemma set_in_use_v s c b : inw s c 0 ->
  set_in_use s c b = HV (with_mem s (upd (mem s) (c / 2) ((if b then 32768 else 0) + wd s (c / 2) mod 32768))).
Proof.
  intros I. unfold set_in_use. rewrite hget_v by exact I. cbn [hbind]. rewrite hput_v by exact I. rewrite Z.add_0_r.
  rewrite u16_small; [reflexivity|]. pose proof (wd_range s (c / 2)). destruct b; lia.
Qed.
Lemma set_forward_v s c v : inw s c 0 ->
  set_forward s c v = HV (with_mem s (upd (mem s) (c / 2) (wd s (c / 2) / 32768 * 32768 + v mod 32768))).
Proof.
  intros I. unfold set_forward. rewrite hget_v by exact I. cbn [hbind]. rewrite hput_v by exact I. rewrite Z.add_0_r.
  rewrite u16_small; [reflexivity|]. pose proof (wd_range s (c / 2)). lia.
Qed.
Lemma set_back_v s c v : inw s c 1 ->
  set_back s c v = HV (with_mem s (upd (mem s) (c / 2 + 1) (wd s (c / 2 + 1) / 32768 * 32768 + v mod 32768))).
Proof.
  intros I. unfold set_back. rewrite hget_v by exact I. cbn [hbind]. rewrite hput_v by exact I.
  rewrite u16_small; [reflexivity|]. pose proof (wd_range s (c / 2 + 1)). lia.
Qed.

Lemma wd_upd_same s m i v : 0 <= v < 65536 -> wd (with_mem s (upd m i v)) i = v.
Proof. intros H. unfold wd. cbn [mem with_mem]. rewrite upd_same. apply u16_small, H. Qed.
Lemma wd_upd_other s m i v j : j <> i -> wd (with_mem s (upd m i v)) j = u16 (m j).
Proof. intros H. unfold wd. cbn [mem with_mem]. rewrite upd_other by exact H. reflexivity. Qed.

Lemma inw_cf s s' a k : cf s' = cf s -> inw s a k -> inw s' a k.
Proof. unfold inw. intros ->. exact (fun H => H). Qed.

Lemma heap_start_cf s s' : cf s' = cf s -> heap_start s' = heap_start s.
Proof. unfold heap_start. intros ->. reflexivity. Qed.

(** ** Disposing of a chunk with a chunk in use, or no chunk, before it *)

Section dispose.
Variables (s : st) (c f a b : Z).
Let hs := heap_start s.
Let nx := u16 (hs + a + f).
Let pv := u16 (hs + a - b).
Hypothesis I0 : inw s c 0. Hypothesis I1 : inw s c 1. Hypothesis I2 : inw s c 2.
Hypothesis I4 : inw s c 4. Hypothesis I5 : inw s c 5.
Hypothesis W0 : wd s (c / 2) mod 32768 = f. Hypothesis F0 : f <> 0.
Hypothesis W1 : wd s (c / 2 + 1) = b. Hypothesis B1 : 0 <= b < 32768.
Hypothesis W2 : wd s (c / 2 + 2) = a.
Hypothesis PV : b <> 0 -> inw s pv 0 /\ 32768 <= wd s (pv / 2) /\ pv / 2 <> c / 2.
Hypothesis NX : inw s nx 0 /\ nx / 2 <> c / 2.
Hypothesis FC : fch s = NULL.

(** ... and one after it *)
Lemma dispose_in_use :
  32768 <= wd s (nx / 2) ->
  dispose_chunk s c =
  HV (with_fch (with_mem s (upd (upd (upd (mem s) (c / 2) f) (c / 2 + 4) 0) (c / 2 + 5) 0)) c).
Proof.
  intros NU. destruct NX as [NX0 NX1]. clear NX.
  assert (Wf : 0 <= f < 65536) by (pose proof (wd_range s (c / 2)); lia).
  unfold dispose_chunk. rewrite set_in_use_v, W0 by exact I0. cbn [hbind]. rewrite Z.add_0_l.
  set (s1 := with_mem s (upd (mem s) (c / 2) f)).
  assert (Hcf : cf s1 = cf s) by reflexivity.
  rewrite (forward_v s1) by exact I0. cbn [hbind]. rewrite (address_v s1) by exact I2. cbn [hbind].
  rewrite (back_v s1) by exact I1. cbn [hbind].
  assert (V0 : wd s1 (c / 2) = f) by (apply wd_upd_same; exact Wf).
  assert (V1 : wd s1 (c / 2 + 1) = b) by (subst s1; rewrite wd_upd_other by lia; exact W1).
  assert (V2 : wd s1 (c / 2 + 2) = a) by (subst s1; rewrite wd_upd_other by lia; exact W2).
  rewrite V0, V1, V2. rewrite (Z.mod_small b), (heap_start_cf s s1) by (lia || reflexivity).
  replace (f mod 32768) with f by lia.
  fold hs. fold nx. fold pv. destruct (f =? 0) eqn:Ef; [lia|].
  assert (Nn : (nx =? NULL) = false) by (subst nx; unfold NULL; pose proof (u16_range (hs + a + f)); lia).
  assert (VN : wd s1 (nx / 2) = wd s (nx / 2)) by (apply wd_upd_other; lia).
  rewrite Nn.
  destruct (b =? 0) eqn:Eb.
  - cbn [hbind]. rewrite in_use_v by exact NX0. cbn [hbind]. rewrite VN.
    replace (32768 <=? wd s (nx / 2)) with true by lia. cbn [hbind].
    rewrite add_empty by assumption. reflexivity.
  - destruct PV as [PV0 [PV1 PV2]]; [lia|]. rewrite in_use_v by exact PV0. cbn [hbind].
    assert (VP : wd s1 (pv / 2) = wd s (pv / 2)) by (apply wd_upd_other; lia). rewrite VP.
    replace (32768 <=? wd s (pv / 2)) with true by lia. cbn [hbind].
    rewrite in_use_v by exact NX0. cbn [hbind]. rewrite VN.
    replace (32768 <=? wd s (nx / 2)) with true by lia. cbn [hbind].
    rewrite add_empty by assumption. reflexivity.
Qed.

End dispose.

(** ... and a free one after it, which is all of the free list *)
Section dispose_free.
Variables (s : st) (c f a b g : Z).
Let hs := heap_start s.
Let nx := u16 (hs + a + f).
Let pv := u16 (hs + a - b).
Let af := u16 (hs + (a + f) + g).
Hypothesis I0 : inw s c 0. Hypothesis I1 : inw s c 1. Hypothesis I2 : inw s c 2.
Hypothesis I4 : inw s c 4. Hypothesis I5 : inw s c 5.
Hypothesis W0 : wd s (c / 2) mod 32768 = f. Hypothesis F0 : f <> 0.
Hypothesis W1 : wd s (c / 2 + 1) = b. Hypothesis B1 : 0 <= b < 32768.
Hypothesis W2 : wd s (c / 2 + 2) = a.
Hypothesis PV : b <> 0 -> inw s pv 0 /\ 32768 <= wd s (pv / 2) /\ pv / 2 <> c / 2.
Hypothesis N0 : inw s nx 0. Hypothesis N2 : inw s nx 2.
Hypothesis N4 : inw s nx 4. Hypothesis N5 : inw s nx 5.
Hypothesis NC : c / 2 + 5 < nx / 2.
Hypothesis G0 : wd s (nx / 2) = g. Hypothesis G : 0 < g < 32768. Hypothesis FG : f + g < 32768.
Hypothesis G2 : wd s (nx / 2 + 2) = a + f.
Hypothesis G4 : wd s (nx / 2 + 4) = 0. Hypothesis G5 : wd s (nx / 2 + 5) = 0.
Hypothesis A1 : inw s af 1.

Lemma dispose_merge :
  exists v, 0 <= v < 65536 /\
  dispose_chunk s c =
  HV (with_fch (with_mem s (upd (upd (upd (upd (upd (mem s) (c / 2) f) (c / 2) (f + g)) (af / 2 + 1) v)
       (c / 2 + 4) 0) (c / 2 + 5) 0)) c).
Proof.
  assert (Wf : 0 < f < 32768) by (pose proof (wd_range s (c / 2)); lia).
  unfold dispose_chunk. rewrite set_in_use_v, W0 by exact I0. cbn [hbind]. rewrite Z.add_0_l.
  set (s1 := with_mem s (upd (mem s) (c / 2) f)).
  assert (Hcf : cf s1 = cf s) by reflexivity.
  rewrite (forward_v s1) by exact I0. cbn [hbind]. rewrite (address_v s1) by exact I2. cbn [hbind].
  rewrite (back_v s1) by exact I1. cbn [hbind].
  assert (V0 : wd s1 (c / 2) = f) by (apply wd_upd_same; lia).
  assert (V1 : wd s1 (c / 2 + 1) = b) by (subst s1; rewrite wd_upd_other by lia; exact W1).
  assert (V2 : wd s1 (c / 2 + 2) = a) by (subst s1; rewrite wd_upd_other by lia; exact W2).
  rewrite V0, V1, V2. rewrite (Z.mod_small b), (heap_start_cf s s1) by (lia || reflexivity).
  replace (f mod 32768) with f by lia.
  fold hs. fold nx. fold pv. destruct (f =? 0) eqn:Ef; [lia|].
  assert (Nn : (nx =? NULL) = false) by (subst nx; unfold NULL; pose proof (u16_range (hs + a + f)); lia).
  assert (VN : forall k, 0 <= k -> wd s1 (nx / 2 + k) = wd s (nx / 2 + k)) by (intros k Hk; apply wd_upd_other; lia).
  rewrite Nn.
  assert (E : (if b =? 0
      then HV (s1, c, false)
      else
       u <~ in_use s1 pv;;
       (if u
        then HV (s1, c, false)
        else
         s0 <~ remove_chunk s1 pv;;
         fp <~ forward s0 pv;;
         fc <~ forward s0 c;;
         s2 <~ set_forward s0 pv (fp + fc);;
         s3 <~ (bn <~ back s2 nx;; bc <~ back s2 c;; set_back s2 nx (bn + bc));;
         s4 <~ add_chunk s3 pv;; HV (s4, pv, true))) = HV (s1, c, false)).
  { destruct (b =? 0) eqn:Eb; [reflexivity|].
    destruct PV as [PV0 [PV1 PV2]]; [lia|]. rewrite in_use_v by exact PV0. cbn [hbind].
    assert (VP : wd s1 (pv / 2) = wd s (pv / 2)) by (apply wd_upd_other; lia). rewrite VP.
    replace (32768 <=? wd s (pv / 2)) with true by lia. reflexivity. }
  rewrite E. clear E. cbn [hbind].
  rewrite in_use_v by exact N0. cbn [hbind].
  assert (VN0 : wd s1 (nx / 2) = g) by (specialize (VN 0 ltac:(lia)); rewrite !Z.add_0_r in VN; congruence).
  rewrite VN0. replace (32768 <=? g) with false by lia. cbv iota.
  rewrite remove_single; [|exact N4|exact N5|rewrite VN by lia; exact G4|rewrite VN by lia; exact G5].
  cbn [hbind].
  rewrite (forward_v (with_fch s1 NULL)) by exact I0. cbn [hbind].
  rewrite (forward_v (with_fch s1 NULL)) by exact N0. cbn [hbind].
  change (wd (with_fch s1 NULL)) with (wd s1). rewrite V0, VN0.
  replace (f mod 32768) with f by lia. replace (g mod 32768) with g by lia.
  rewrite set_forward_v by exact I0. cbn [hbind].
  change (wd (with_fch s1 NULL)) with (wd s1). rewrite V0.
  replace (f / 32768 * 32768 + (f + g) mod 32768) with (f + g) by lia.
  change (mem (with_fch s1 NULL)) with (upd (mem s) (c / 2) f).
  set (s2 := with_mem (with_fch s1 NULL) (upd (upd (mem s) (c / 2) f) (c / 2) (f + g))).
  assert (V2k : forall k, k <> c / 2 -> wd s2 k = wd s k).
  { intros k Hk. subst s2. rewrite wd_upd_other by exact Hk. rewrite upd_other by exact Hk. reflexivity. }
  rewrite (forward_v s2) by exact N0. cbn [hbind]. rewrite V2k, G0 by lia.
  replace (g mod 32768) with g by lia. replace (g =? 0) with false by lia.
  rewrite (address_v s2) by exact N2. cbn [hbind]. rewrite V2k, G2 by lia.
  change (heap_start s2) with hs. fold af.
  rewrite (back_v s2) by exact A1. cbn [hbind]. rewrite (back_v s2) by exact I1. cbn [hbind].
  rewrite set_back_v by exact A1. cbn [hbind].
  set (v := wd s2 (af / 2 + 1) / 32768 * 32768 + _). exists v. split.
  - subst v. pose proof (wd_range s2 (af / 2 + 1)). lia.
  - rewrite add_empty; [|reflexivity|exact I4|exact I5]. reflexivity.
Qed.

End dispose_free.
