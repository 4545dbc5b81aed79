(** Runs for which the heap does not behave as expected *)

From Coq Require Import ZArith Bool List Lia ZifyBool.
From Verif Require Import Words State WordLemmas StateLemmas HeapModel HeapSpec HeapProofs HeapInv HeapMain.
Import ListNotations.
Open Scope Z_scope.
Local Ltac Zify.zify_post_hook ::= Z.div_mod_to_equations.

(** A program: allocate, dispose of a live block (0 is the most recent one),
    store a byte *)
Inductive hop := N (n : Z) | D (i : nat) | S (a v : Z).

(** The argument is put on the stack *)
Definition prep (s : st) (v : Z) : st := with_sp (with_mem s (upd (mem s) 16 v)) 32.

Definition live_b (live : list (Z * Z)) (b : Z) : bool :=
  existsb (fun x => (fst x <=? b) && (b <? fst x + snd x)) live.

Fixpoint drive (lifo : bool) (ops : list hop) (es : list event) (s : st) (live : list (Z * Z)) :
  option (list event * st * list (Z * Z)) :=
  match ops with
  | [] => Some (es, s, live)
  | N n :: r =>
    if (c_hpb (cf s) <? 34) || (c_ssz (cf s) <? 34) || (n <? 0) || (65535 <? n) || (lifo && (65520 <? n)) then None
    else match os_new (prep s n) with
         | Ok s' => match tos s' 0 with
                    | Some a => drive lifo r (ENew a n :: EUser :: es) s' ((a, n) :: live)
                    | None => None
                    end
         | Err _ s' => drive lifo r (ENewFailed n :: EUser :: es) s' live
         | _ => None
         end
  | D i :: r =>
    if lifo && negb (Nat.eqb i 0) then None
    else match nth_error live i with
         | Some (a, n) =>
           if (c_hpb (cf s) <? 34) || (c_ssz (cf s) <? 34) || (a <? 0) || (65535 <? a) then None
           else match os_dispose (prep s a) with
                | Ok s' => drive lifo r (EDispose a n :: EUser :: es) s' (firstn i live ++ skipn (Datatypes.S i) live)
                | _ => None
                end
         | None => None
         end
  | S a v :: r =>
    if live_b live a then drive lifo r (EUser :: es) (with_mem s (set_byte (mem s) a v)) live else None
  end.

Lemma prep_user s v live : 34 <= c_hpb (cf s) -> user_step s live (prep s v).
Proof.
  intros H. apply below_user; [reflexivity|reflexivity|]. intros i Hi. unfold prep. cbn [mem with_sp with_mem].
  apply upd_other. lia.
Qed.

Lemma prep_tos s v : 34 <= c_ssz (cf s) -> 0 <= v < 65536 -> tos (prep s v) 0 = Some v.
Proof.
  intros H Hv. unfold tos. cbn [sp prep with_sp]. rewrite rd_in.
  - cbn. unfold upd. cbn. rewrite u16_small by exact Hv. reflexivity.
  - apply in_word_iff. unfold prep. cbn [cf with_sp with_mem]. cbn. lia.
Qed.

Lemma nth_split_firstn {A} (l : list A) i x : nth_error l i = Some x -> l = firstn i l ++ x :: skipn (Datatypes.S i) l.
Proof.
  revert i. induction l as [|y l IH]; intros [|i] H; cbn in *; try discriminate.
  - injection H as ->. reflexivity.
  - rewrite <- (IH i H). reflexivity.
Qed.

Lemma live_b_spec live b : live_b live b = true <-> in_live live b.
Proof.
  unfold live_b, in_live, in_block. rewrite existsb_exists. split; intros [x [H1 H2]]; exists x; (split; [exact H1 | lia]).
Qed.

Lemma drive_hist lifo s0 ops : forall es s live es' s' live',
  hist lifo s0 es s live ->
  drive lifo ops es s live = Some (es', s', live') -> hist lifo s0 es' s' live'.
Proof.
  induction ops as [|o ops IH]; intros es s live es' s' live' Hh Hd; cbn [drive] in Hd.
  - injection Hd as <- <- <-. exact Hh.
  - destruct o as [n | i | a v].
    + destruct ((c_hpb (cf s) <? 34) || (c_ssz (cf s) <? 34) || (n <? 0) || (65535 <? n) || (lifo && (65520 <? n))) eqn:Eg; [discriminate|].
      assert (H1 : hist lifo s0 (EUser :: es) (prep s n) live).
      { apply (h_step _ _ es s live EUser _ _ Hh). apply h_user. apply prep_user. lia. }
      assert (Ht : tos (prep s n) 0 = Some n) by (apply prep_tos; lia).
      assert (Hsp : 0 <= sp (prep s n) < c_hpb (cf (prep s n))) by (cbn; lia).
      assert (Hl : lifo = true -> n <= 65520) by (intros ->; lia).
      destruct (os_new (prep s n)) as [s1 | e s1 | | |] eqn:Eo; try discriminate.
      * destruct (tos s1 0) as [a|] eqn:Ea; [|discriminate].
        refine (IH _ _ _ _ _ _ _ Hd). apply (h_step _ _ _ _ _ _ _ _ H1). apply h_new; assumption.
      * refine (IH _ _ _ _ _ _ _ Hd). apply (h_step _ _ _ _ _ _ _ _ H1). exact (h_new_failed lifo _ live n e s1 Hsp Ht Hl Eo).
    + destruct (lifo && negb (Nat.eqb i 0)) eqn:El; [discriminate|].
      destruct (nth_error live i) as [[a n]|] eqn:En; [|discriminate].
      destruct ((c_hpb (cf s) <? 34) || (c_ssz (cf s) <? 34) || (a <? 0) || (65535 <? a)) eqn:Eg; [discriminate|].
      assert (H1 : hist lifo s0 (EUser :: es) (prep s a) live).
      { apply (h_step _ _ es s live EUser _ _ Hh). apply h_user. apply prep_user. lia. }
      assert (Ht : tos (prep s a) 0 = Some a) by (apply prep_tos; lia).
      destruct (os_dispose (prep s a)) as [s1 | e s1 | | |] eqn:Eo; try discriminate.
      refine (IH _ _ _ _ _ _ _ Hd). apply (h_step _ _ _ _ _ _ _ _ H1).
      rewrite (nth_split_firstn live i (a, n) En) at 1. apply h_dispose; [|exact Ht|exact Eo].
      intros ->. destruct i; [reflexivity | discriminate El].
    + destruct (live_b live a) eqn:El; [|discriminate].
      refine (IH _ _ _ _ _ _ _ Hd). apply (h_step _ _ _ _ _ _ _ _ Hh). apply h_user.
      split; [reflexivity|]. split; [reflexivity|]. intros b _ Hb. cbn [mem with_mem]. apply set_byte_other.
      intros ->. apply Hb, live_b_spec, El.
Qed.

(** A heap of 256 bytes *)
Definition cfg0 : cfg := mkCfg 400 32 64 16 256.
Definition state0 : st := mkSt (fun _ => 0) cfg0 32 0 0 0 0 NULL.
Definition start0 : st := match init_heap state0 with HV s => s | _ => state0 end.

Lemma cfg0_ok : heap_cfg (cf state0).
Proof. unfold heap_cfg, cfg_ok. cbn. lia. Qed.

Lemma start0_eq : init_heap state0 = HV start0.
Proof. destruct (init_def state0 cfg0_ok) as [s E]. unfold start0. rewrite E. reflexivity. Qed.

Definition run0 (lifo : bool) (ops : list hop) : list event * st * list (Z * Z) :=
  match drive lifo ops [] start0 [] with Some r => r | None => ([], start0, []) end.

Lemma run0_hist lifo ops : hist lifo start0 (fst (fst (run0 lifo ops))) (snd (fst (run0 lifo ops))) (snd (run0 lifo ops)).
Proof.
  unfold run0. destruct (drive lifo ops [] start0 []) as [[[es s] live]|] eqn:E.
  - exact (drive_hist lifo start0 ops _ _ _ _ _ _ (h_start _ _) E).
  - cbn [fst snd]. exact (h_start lifo start0).
Qed.

(** ** C22 *)

Lemma overlap_refuted : exists si s0 es s live,
  heap_cfg (cf si) /\ init_heap si = HV s0 /\ hist false s0 es s live /\ ~ blocks_ok (cf si) live.
Proof.
  set (ops := [N 10; N 10; D 1; N 40; D 1; N 40]).
  exists state0, start0, (fst (fst (run0 false ops))), (snd (fst (run0 false ops))), (snd (run0 false ops)).
  split; [exact cfg0_ok|]. split; [exact start0_eq|]. split; [exact (run0_hist false ops)|].
  assert (E : snd (run0 false ops) = [(120, 40); (120, 40)]) by (vm_compute; reflexivity). rewrite E.
  intros [[H _] _]. apply (H 120).
  - unfold in_block. cbn. lia.
  - exists (120, 40). split; [left; reflexivity|]. unfold in_block. cbn. lia.
Qed.

Lemma large_refuted : exists si s0 es s live,
  heap_cfg (cf si) /\ init_heap si = HV s0 /\ hist false s0 es s live /\ live = [(72, 65530)] /\ ~ blocks_ok (cf si) live.
Proof.
  set (ops := [N 65530]).
  exists state0, start0, (fst (fst (run0 false ops))), (snd (fst (run0 false ops))), (snd (run0 false ops)).
  split; [exact cfg0_ok|]. split; [exact start0_eq|]. split; [exact (run0_hist false ops)|].
  assert (E : snd (run0 false ops) = [(72, 65530)]) by (vm_compute; reflexivity). rewrite E.
  split; [reflexivity|]. intros [_ H]. specialize (H 1000). unfold in_heap in H. cbn in H.
  assert (X : in_live [(72, 65530)] 1000) by (exists (72, 65530); split; [left; reflexivity|]; unfold in_block; cbn; lia).
  specialize (H X). lia.
Qed.

Lemma undefined_step es s live : hist false start0 es s live -> c_hpb (cf s) = 64 -> c_ssz (cf s) = 400 ->
  os_new (prep s 10) = UB ->
  exists si s0 es s live n,
  heap_cfg (cf si) /\ init_heap si = HV s0 /\ hist false s0 es s live /\
  0 <= sp s < c_hpb (cf s) /\ tos s 0 = Some n /\ os_new s = UB.
Proof.
  intros H H1 H2 H3. exists state0, start0, (EUser :: es), (prep s 10), live, 10.
  split; [exact cfg0_ok|]. split; [exact start0_eq|]. split.
  { apply (h_step _ _ _ _ _ EUser _ _ H). apply h_user. apply prep_user. lia. }
  split; [cbn [sp prep with_sp cf with_mem]; lia|]. split; [apply prep_tos; lia|]. exact H3.
Qed.

Lemma undefined_refuted : exists si s0 es s live n,
  heap_cfg (cf si) /\ init_heap si = HV s0 /\ hist false s0 es s live /\
  0 <= sp s < c_hpb (cf s) /\ tos s 0 = Some n /\ os_new s = UB.
Proof.
  apply (undefined_step _ _ _ (run0_hist false [N 10; N 10; D 1; D 0; N 10; D 0])).
  - vm_compute. reflexivity.
  - vm_compute. reflexivity.
  - vm_compute. reflexivity.
Qed.

(** ** C23 *)

Lemma available_refuted : exists si s0 es s,
  heap_cfg (cf si) /\ init_heap si = HV s0 /\ hist false s0 es s [] /\ satisfiable s0 200 /\ ~ satisfiable s 200.
Proof.
  set (ops := [N 10; N 10; D 1; D 0]).
  exists state0, start0, (fst (fst (run0 false ops))), (snd (fst (run0 false ops))).
  split; [exact cfg0_ok|]. split; [exact start0_eq|].
  assert (E : snd (run0 false ops) = []) by (vm_compute; reflexivity).
  pose proof (run0_hist false ops) as H. rewrite E in H. split; [exact H|]. split.
  - destruct (alloc start0 200) as [[s' a]| |] eqn:EA.
    + exists s', a. split; [exact EA|]. intros Z0.
      assert (X : match alloc start0 200 with HV (_, a) => a =? 0 | _ => true end = false) by (vm_compute; reflexivity).
      rewrite EA, Z0 in X. discriminate X.
    + assert (X : match alloc start0 200 with HV (_, a) => a =? 0 | _ => true end = false) by (vm_compute; reflexivity).
      rewrite EA in X. discriminate X.
    + assert (X : match alloc start0 200 with HV (_, a) => a =? 0 | _ => true end = false) by (vm_compute; reflexivity).
      rewrite EA in X. discriminate X.
  - intros (s' & a & EA & Ha).
    assert (X : match alloc (snd (fst (run0 false ops))) 200 with HV (_, a) => a =? 0 | _ => true end = true) by (vm_compute; reflexivity).
    rewrite EA in X. lia.
Qed.

(** ** C24 *)

Definition cfg1 : cfg := mkCfg 130 32 66 16 64.
Lemma init_overflow_refuted : exists si, cfg_ok (cf si) /\ 32 < c_hpsz (cf si) /\ init_heap si = HU.
Proof.
  exists (mkSt (fun _ => 0) cfg1 32 0 0 0 0 NULL). unfold cfg_ok. cbn [cf cfg1 c_ssz c_hpb c_hpsz].
  split; [lia|]. split; [lia|]. vm_compute. reflexivity.
Qed.

Definition cfg2 : cfg := mkCfg 40000 32 64 16 32800.
Lemma init_large_refuted : exists si s, cfg_ok (cf si) /\ c_hpsz (cf si) = 32800 /\ c_hpb (cf si) mod 16 = 0 /\
  init_heap si = HV s /\ forall n, 0 < n <= 65520 -> ~ satisfiable s n.
Proof.
  set (si := mkSt (fun _ => 0) cfg2 32 0 0 0 0 NULL).
  destruct (init_heap si) as [s| |] eqn:E; [|vm_compute in E; discriminate E|vm_compute in E; discriminate E].
  exists si, s. unfold cfg_ok. cbn [cf cfg2 si c_ssz c_hpb c_hpsz].
  split; [lia|]. split; [reflexivity|]. split; [reflexivity|]. split; [exact E|].
  intros n Hn (s' & a & EA & Ha).
  destruct (chunk_size_ok n Hn) as [Hcs Hal]. unfold alloc in EA. rewrite heap_bound_S in EA. cbn [alloc_loop] in EA.
  assert (F : fch s = 64) by (pose (f := match init_heap si with HV x => fch x | _ => 0 end);
    assert (X : f = 64) by (vm_compute; reflexivity); unfold f in X; rewrite E in X; exact X).
  assert (G : forward s 64 = HV 16) by (pose (f := match init_heap si with HV x => forward x 64 | _ => HU end);
    assert (X : f = HV 16) by (vm_compute; reflexivity); unfold f in X; rewrite E in X; exact X).
  assert (G' : next s 64 = HV 0) by (pose (f := match init_heap si with HV x => next x 64 | _ => HU end);
    assert (X : f = HV 0) by (vm_compute; reflexivity); unfold f in X; rewrite E in X; exact X).
  rewrite F in EA. replace (64 =? NULL) with false in EA by reflexivity. rewrite G, G' in EA. cbn [hbind] in EA.
  replace (chunk_size n <=? 16) with false in EA by lia. unfold link in EA. cbn [Z.eqb] in EA.
  replace (NULL =? NULL) with true in EA by reflexivity. injection EA as <- <-. lia.
Qed.

(** ** C25 *)

Lemma twice_step es s live : hist true start0 es s live -> c_hpb (cf s) = 64 -> c_ssz (cf s) = 400 ->
  In (EDispose 96 10) es -> live = [(72, 100)] ->
  match os_dispose (prep s 96) with Ok _ => true | _ => false end = true ->
  exists si s0 es s live a n s',
  heap_cfg (cf si) /\ init_heap si = HV s0 /\ hist true s0 es s live /\ In (EDispose a n) es /\
  (forall m, ~ In (a, m) live) /\ tos s 0 = Some a /\ os_dispose s = Ok s'.
Proof.
  intros H H1 H2 H3 H4 H5. destruct (os_dispose (prep s 96)) as [s' | | | |] eqn:E; try discriminate H5.
  exists state0, start0, (EUser :: es), (prep s 96), live, 96, 10, s'.
  split; [exact cfg0_ok|]. split; [exact start0_eq|]. split.
  { apply (h_step _ _ _ _ _ EUser _ _ H). apply h_user. apply prep_user. lia. }
  split; [right; exact H3|]. split; [|split; [apply prep_tos; lia|exact E]].
  rewrite H4. intros m [X | []]. injection X as X _. lia.
Qed.

Lemma twice_refuted : exists si s0 es s live a n s',
  heap_cfg (cf si) /\ init_heap si = HV s0 /\ hist true s0 es s live /\ In (EDispose a n) es /\
  (forall m, ~ In (a, m) live) /\ tos s 0 = Some a /\ os_dispose s = Ok s'.
Proof.
  apply (twice_step _ _ _ (run0_hist true [N 10; N 10; D 0; D 0; N 100; S 89 128])).
  - vm_compute. reflexivity.
  - vm_compute. reflexivity.
  - assert (E1 : fst (fst (run0 true [N 10; N 10; D 0; D 0; N 100; S 89 128])) =
      [EUser; ENew 72 100; EUser; EDispose 72 10; EUser; EDispose 96 10; EUser; ENew 96 10; EUser; ENew 72 10; EUser])
      by (vm_compute; reflexivity).
    rewrite E1. cbn. tauto.
  - vm_compute. reflexivity.
  - vm_compute. reflexivity.
Qed.
