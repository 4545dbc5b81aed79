(** The words of constant sets. *)

From Coq Require Import ZArith Bool List Lia ZifyBool.
From Verif Require Import Words State ExprModel ExprSpec ConstModel ConstSpec.
Import ListNotations.
Open Scope Z_scope.
Ltac Zify.zify_post_hook ::= Z.to_euclidean_division_equations.

Definition bit (l : list Z) (k : Z) : bool := Z.testbit (nth (Z.to_nat (k / 16)) l 0) (k mod 16).
Definition words_ok (l : list Z) : Prop := length l = 4%nat /\ Forall (fun w => 0 <= w <= 65535) l.

Definition upto (n : nat) : list Z := map Z.of_nat (seq 0 n).
Lemma in_upto n k : 0 <= k < Z.of_nat n -> In k (upto n).
Proof.
  intros H. unfold upto. apply in_map_iff. exists (Z.to_nat k). split; [lia|]. apply in_seq. lia.
Qed.
Lemma pairs_checked n m (P : Z -> Z -> bool) :
  forallb (fun a => forallb (P a) (upto m)) (upto n) = true ->
  forall a b, 0 <= a < Z.of_nat n -> 0 <= b < Z.of_nat m -> P a b = true.
Proof.
  intros H a b A B. rewrite forallb_forall in H. specialize (H a (in_upto _ _ A)). cbv beta in H.
  rewrite forallb_forall in H. apply H. apply in_upto. exact B.
Qed.

Lemma lead_bit a k : 0 <= a < 16 -> 0 <= k < 16 -> Z.testbit (u16 (Z.shiftl 0xffff a)) k = (a <=? k).
Proof.
  intros A K. apply eqb_prop.
  apply (pairs_checked 16 16 (fun a k => eqb (Z.testbit (u16 (Z.shiftl 0xffff a)) k) (a <=? k))); [vm_compute; reflexivity|exact A|exact K].
Qed.
Lemma tail_bit b k : 0 <= b < 16 -> 0 <= k < 16 -> Z.testbit (Z.shiftr 0xffff (15 - b)) k = (k <=? b).
Proof.
  intros A K. apply eqb_prop.
  apply (pairs_checked 16 16 (fun b k => eqb (Z.testbit (Z.shiftr 0xffff (15 - b)) k) (k <=? b))); [vm_compute; reflexivity|exact A|exact K].
Qed.
Lemma full_bit k : 0 <= k < 16 -> Z.testbit 0xffff k = true.
Proof.
  intros K. apply (pairs_checked 1 16 (fun _ k => Z.testbit 0xffff k)) with (a := 0); [vm_compute; reflexivity|lia|exact K].
Qed.
Lemma lead_range a : 0 <= u16 (Z.shiftl 0xffff a) <= 65535.
Proof. unfold u16. lia. Qed.
Lemma tail_range b : 0 <= b < 16 -> 0 <= Z.shiftr 0xffff (15 - b) <= 65535.
Proof.
  intros B. assert (E : (0 <=? Z.shiftr 0xffff (15 - b)) && (Z.shiftr 0xffff (15 - b) <=? 65535) = true); [|lia].
  apply (pairs_checked 16 1 (fun b _ => (0 <=? Z.shiftr 0xffff (15 - b)) && (Z.shiftr 0xffff (15 - b) <=? 65535))) with (b := 0);
    [vm_compute; reflexivity|exact B|lia].
Qed.

Lemma four (l : list Z) : length l = 4%nat -> exists a b c d, l = [a; b; c; d].
Proof. destruct l as [|a [|b [|c [|d [|e l]]]]]; try discriminate. eauto. Qed.

(** ** Replacing a word *)

Lemma put_ok i v l : words_ok l -> 0 <= i < 4 -> 0 <= v <= 65535 ->
  exists l', put_word i v l = Some l' /\ words_ok l' /\
    forall k, 0 <= k < 64 -> bit l' k = if k / 16 =? i then Z.testbit v (k mod 16) else bit l k.
Proof.
  intros (L & W) I V. destruct (four _ L) as (a & b & c & d & ->).
  assert (C : i = 0 \/ i = 1 \/ i = 2 \/ i = 3) by lia.
  inversion W as [|? ? Wa W1]. subst. inversion W1 as [|? ? Wb W2]. subst. inversion W2 as [|? ? Wc W3]. subst. inversion W3 as [|? ? Wd _]. subst.
  destruct C as [->|[->|[->| ->]]]; eexists; (split; [reflexivity|]); (split; [split; [reflexivity|cbn; repeat (apply Forall_cons; [assumption|]); apply Forall_nil]|]);
    intros k K; unfold bit; cbn [firstn skipn app Z.to_nat Pos.to_nat Pos.iter_op Nat.add];
    assert (C : k / 16 = 0 \/ k / 16 = 1 \/ k / 16 = 2 \/ k / 16 = 3) by lia;
    destruct C as [C|[C|[C|C]]]; rewrite C; reflexivity.
Qed.

Lemma fill_more n tm tb m bw nb i l : 0 < nb ->
  fill (S n) tm tb m bw nb i l =
  match put_word i m l with
  | None => None
  | Some l =>
    if 16 <=? nb - bw then fill n tm tb 0xffff 16 (nb - bw) (i + 1) l
    else if 0 <? nb - bw then fill n tm tb tm bw tb (i + 1) l
    else fill n tm tb m bw (nb - bw) (i + 1) l
  end.
Proof. intros H. cbn [fill]. replace (0 <? nb) with true by lia. reflexivity. Qed.
Lemma fill_done n tm tb m bw nb i l : nb <= 0 -> fill n tm tb m bw nb i l = Some l.
Proof. intros H. destruct n; cbn [fill]; replace (0 <? nb) with false by lia; reflexivity. Qed.

(** ** Elements and ranges *)

Definition in16 (lo z : Z) : Prop := lo <= z <= lo + 63 /\ 0 <= z <= 65535.
Lemma in_base_16 lo z : in_base lo z = true <-> in16 lo z.
Proof. unfold in_base, in16. lia. Qed.

Lemma element_added lo z l : words_ok l -> in16 lo z ->
  exists l', add_element z lo l = Some l' /\ words_ok l' /\
    forall k, 0 <= k < 64 -> bit l' k = (z - lo =? k) || bit l k.
Proof.
  intros W (H1 & H2). unfold add_element. assert (E : u16 (z - lo) = z - lo) by (unfold u16; lia). rewrite E.
  set (b := z - lo) in *. assert (B : 0 <= b < 64) by lia. clearbody b.
  assert (V : 0 <= set_word (b / 16) l <= 65535).
  { unfold set_word. destruct W as (L & W). rewrite Forall_forall in W. apply W. apply nth_In. lia. }
  assert (Q : 0 <= Z.lor (set_word (b / 16) l) (2 ^ (b mod 16)) <= 65535).
  { split; [apply Z.lor_nonneg; split; [lia|apply Z.pow_nonneg; lia]|].
    assert (Z.lor (set_word (b / 16) l) (2 ^ (b mod 16)) < 2 ^ 16); [|lia].
    destruct (Z.eq_dec (Z.lor (set_word (b / 16) l) (2 ^ (b mod 16))) 0) as [->|N]; [lia|].
    apply Z.log2_lt_pow2; [assert (0 <= Z.lor (set_word (b / 16) l) (2 ^ (b mod 16))) by (apply Z.lor_nonneg; split; [lia|apply Z.pow_nonneg; lia]); lia|].
    rewrite Z.log2_lor by (try apply Z.pow_nonneg; lia). rewrite Z.log2_pow2 by lia.
    apply Z.max_lub_lt; [|lia]. destruct (Z.eq_dec (set_word (b / 16) l) 0) as [->|N']; [cbn; lia|].
    apply Z.log2_lt_pow2; lia. }
  destruct (put_ok (b / 16) _ l W ltac:(lia) Q) as (l' & E' & W' & B').
  exists l'. split; [exact E'|]. split; [exact W'|]. intros k K. rewrite B' by exact K.
  destruct (Z.eqb_spec (k / 16) (b / 16)) as [D|D].
  - rewrite Z.lor_spec, Z.pow2_bits_eqb by lia. unfold bit, set_word. rewrite D, orb_comm. f_equal. lia.
  - replace (b =? k) with false by lia. reflexivity.
Qed.

Lemma range_added lo y z l : words_ok l -> in16 lo y -> in16 lo z -> good_range (y - lo) (z - lo) = true ->
  (forall k, 0 <= k < 64 -> (y - lo) / 16 <= k / 16 <= (z - lo) / 16 -> bit l k = false) ->
  exists l', add_range y z lo l = Some l' /\ words_ok l' /\
    forall k, 0 <= k < 64 -> bit l' k = ((y - lo <=? k) && (k <=? z - lo)) || bit l k.
Proof.
  intros W (Y1 & Y2) (Z1 & Z2) G F. unfold add_range.
  assert (EY : u16 (y - lo) = y - lo) by (unfold u16; lia). assert (EZ : u16 (z - lo) = z - lo) by (unfold u16; lia). rewrite EY, EZ.
  assert (EN : z - y + 1 = (z - lo) - (y - lo) + 1) by lia. rewrite EN.
  set (a := y - lo) in *. set (b := z - lo) in *. assert (A : 0 <= a < 64) by lia. assert (B : 0 <= b < 64) by lia.
  clearbody a b. clear y z Y1 Y2 Z1 Z2 EY EZ EN lo.
  set (lead := u16 (Z.shiftl 65535 (a mod 16))) in *. set (tail := Z.shiftr 65535 (15 - b mod 16)) in *.
  assert (Lr : 0 <= lead <= 65535) by apply lead_range. assert (Tr : 0 <= tail <= 65535) by (apply tail_range; lia).
  assert (Lb : forall k, 0 <= k < 16 -> Z.testbit lead k = (a mod 16 <=? k)) by (intros; apply lead_bit; lia).
  assert (Tb : forall k, 0 <= k < 16 -> Z.testbit tail k = (k <=? b mod 16)) by (intros; apply tail_bit; lia).
  clearbody lead tail. cbv zeta.
  destruct (Z.eqb_spec (a / 16) (b / 16)) as [S|S].
  - destruct (put_ok (a / 16) (Z.land lead tail) l W ltac:(lia)) as (l' & E & W' & P).
    { split; [apply Z.land_nonneg; lia|]. destruct (Z.eq_dec (Z.land lead tail) 0) as [->|N]; [lia|].
      assert (0 <= Z.land lead tail) by (apply Z.land_nonneg; lia).
      assert (Z.land lead tail < 2 ^ 16); [|lia]. apply Z.log2_lt_pow2; [lia|].
      eapply Z.le_lt_trans; [apply Z.log2_land; lia|]. apply Z.min_lt_iff. left.
      destruct (Z.eq_dec lead 0) as [->|]; [cbn; lia|]. apply Z.log2_lt_pow2; lia. }
    exists l'. split; [exact E|]. split; [exact W'|]. intros k K. rewrite P by exact K.
    destruct (Z.eqb_spec (k / 16) (a / 16)) as [D|D].
    + rewrite Z.land_spec, Lb, Tb by lia. rewrite F by lia. rewrite orb_false_r. f_equal; lia.
    + replace ((a <=? k) && (k <=? b)) with false by lia. reflexivity.
  - unfold good_range in G. replace (a / 16 =? b / 16) with false in G by lia. rewrite orb_false_r in G.
    destruct (Z.ltb_spec b a) as [R|R].
    + rewrite fill_done by lia. exists l. split; [reflexivity|]. split; [exact W|]. intros k K.
      replace ((a <=? k) && (k <=? b)) with false by lia. reflexivity.
    + assert (A16 : a < 16) by lia. replace (a / 16) with 0 by lia.
      rewrite fill_more by lia. destruct (put_ok 0 lead l W ltac:(lia) Lr) as (l1 & -> & W1 & P1).
      replace (b - a + 1 - (16 - a)) with (b - 15) by lia.
      assert (P1' : forall k, 0 <= k < 64 -> bit l1 k = if k / 16 =? 0 then a <=? k else bit l k).
      { intros k K. rewrite P1 by exact K. destruct (Z.eqb_spec (k / 16) 0); [|reflexivity]. rewrite Lb by lia. lia. }
      destruct (Z.leb_spec 16 (b - 15)) as [Q|Q].
      * rewrite fill_more by lia. destruct (put_ok 1 65535 l1 W1 ltac:(lia) ltac:(lia)) as (l2 & E2 & W2 & P2). change (0 + 1) with 1. rewrite E2.
        assert (P2' : forall k, 0 <= k < 64 -> bit l2 k = if k / 16 =? 0 then a <=? k else if k / 16 =? 1 then true else bit l k).
        { intros k K. rewrite P2 by exact K. destruct (Z.eqb_spec (k / 16) 1); [|apply P1'; exact K].
          rewrite full_bit by lia. replace (k / 16 =? 0) with false by lia. reflexivity. }
        clear P1 P1' P2. replace (b - 15 - 16) with (b - 31) by lia. change (1 + 1) with 2.
        destruct (Z.leb_spec 16 (b - 31)) as [Q2|Q2].
        -- rewrite fill_more by lia. destruct (put_ok 2 65535 l2 W2 ltac:(lia) ltac:(lia)) as (l3 & E3 & W3 & P3). rewrite E3.
           change (2 + 1) with 3. replace (b - 31 - 16) with (b - 47) by lia.
           assert (P3' : forall k, 0 <= k < 64 -> bit l3 k = if k / 16 =? 0 then a <=? k else if k / 16 <=? 2 then true else bit l k).
           { intros k K. rewrite P3 by exact K. destruct (Z.eqb_spec (k / 16) 2) as [D|D].
             - rewrite full_bit by lia. replace (k / 16 =? 0) with false by lia. replace (k / 16 <=? 2) with true by lia. reflexivity.
             - rewrite P2' by exact K. destruct (k / 16 =? 0) eqn:D0; [reflexivity|]. destruct (Z.eqb_spec (k / 16) 1).
               + replace (k / 16 <=? 2) with true by lia. reflexivity.
               + replace (k / 16 <=? 2) with false by lia. reflexivity. }
           assert (Fin : forall k v, 0 <= k < 64 -> k / 16 = 3 -> (forall j, 0 <= j < 16 -> Z.testbit v j = (j <=? b mod 16)) -> 48 <= b ->
              Z.testbit v (k mod 16) = (a <=? k) && (k <=? b) || bit l k).
           { intros k v K D V B48. rewrite V by lia. rewrite F by lia. lia. }
           assert (Oth : forall k, 0 <= k < 64 -> k / 16 <> 3 -> bit l3 k = (a <=? k) && (k <=? b) || bit l k).
           { intros k K D. rewrite P3' by exact K. destruct (Z.eqb_spec (k / 16) 0).
             - rewrite F by lia. lia.
             - replace (k / 16 <=? 2) with true by lia. rewrite F by lia. lia. }
           destruct (Z.leb_spec 16 (b - 47)) as [Q3|Q3].
           ++ rewrite fill_more by lia. destruct (put_ok 3 65535 l3 W3 ltac:(lia) ltac:(lia)) as (l4 & E4 & W4 & P4). rewrite E4.
              replace (16 <=? b - 47 - 16) with false by lia. replace (0 <? b - 47 - 16) with false by lia. rewrite fill_done by lia.
              exists l4. split; [reflexivity|]. split; [exact W4|]. intros k K. rewrite P4 by exact K. destruct (Z.eqb_spec (k / 16) 3).
              ** apply Fin; try assumption; [|lia]. intros j J. rewrite full_bit by lia. lia.
              ** apply Oth; assumption.
           ++ destruct (Z.ltb_spec 0 (b - 47)) as [Q4|Q4].
              ** rewrite fill_more by lia. destruct (put_ok 3 tail l3 W3 ltac:(lia) Tr) as (l4 & E4 & W4 & P4). rewrite E4.
                 replace (16 <=? b mod 16 + 1 - 16) with false by lia. replace (0 <? b mod 16 + 1 - 16) with false by lia. rewrite fill_done by lia.
                 exists l4. split; [reflexivity|]. split; [exact W4|]. intros k K. rewrite P4 by exact K. destruct (Z.eqb_spec (k / 16) 3).
                 --- apply Fin; try assumption; lia.
                 --- apply Oth; assumption.
              ** rewrite fill_done by lia. exists l3. split; [reflexivity|]. split; [exact W3|]. intros k K.
                 destruct (Z.eq_dec (k / 16) 3) as [D|D]; [|apply Oth; assumption].
                 rewrite P3' by exact K. rewrite D. cbn. replace ((a <=? k) && (k <=? b)) with false by lia. reflexivity.
        -- destruct (Z.ltb_spec 0 (b - 31)) as [Q3|Q3].
           ++ rewrite fill_more by lia. destruct (put_ok 2 tail l2 W2 ltac:(lia) Tr) as (l3 & E3 & W3 & P3). rewrite E3.
              replace (16 <=? b mod 16 + 1 - 16) with false by lia. replace (0 <? b mod 16 + 1 - 16) with false by lia. rewrite fill_done by lia.
              exists l3. split; [reflexivity|]. split; [exact W3|]. intros k K. rewrite P3 by exact K. destruct (Z.eqb_spec (k / 16) 2).
              ** rewrite Tb by lia. rewrite F by lia. lia.
              ** rewrite P2' by exact K. destruct (Z.eqb_spec (k / 16) 0); [rewrite F by lia; lia|].
                 destruct (Z.eqb_spec (k / 16) 1); [rewrite F by lia; lia|].
                 replace ((a <=? k) && (k <=? b)) with false by lia. reflexivity.
           ++ rewrite fill_done by lia. exists l2. split; [reflexivity|]. split; [exact W2|]. intros k K.
              rewrite P2' by exact K. destruct (Z.eqb_spec (k / 16) 0); [rewrite F by lia; lia|].
              destruct (Z.eqb_spec (k / 16) 1); [rewrite F by lia; lia|].
              replace ((a <=? k) && (k <=? b)) with false by lia. reflexivity.
      * replace (0 <? b - 15) with true by lia. rewrite fill_more by lia. change (0 + 1) with 1.
        destruct (put_ok 1 tail l1 W1 ltac:(lia) Tr) as (l2 & E2 & W2 & P2). rewrite E2.
        replace (16 <=? b mod 16 + 1 - (16 - a)) with false by lia. replace (0 <? b mod 16 + 1 - (16 - a)) with false by lia. rewrite fill_done by lia.
        exists l2. split; [reflexivity|]. split; [exact W2|]. intros k K. rewrite P2 by exact K. destruct (Z.eqb_spec (k / 16) 1).
        -- rewrite Tb by lia. rewrite F by lia. lia.
        -- rewrite P1' by exact K. destruct (Z.eqb_spec (k / 16) 0); [rewrite F by lia; lia|].
           replace ((a <=? k) && (k <=? b)) with false by lia. reflexivity.
Qed.
