(** The code of a block does what the block means. *)

From Coq Require Import ZArith Bool List Lia ZifyBool.
From Verif Require Import Words WordLemmas State StateLemmas Opcodes EncodeModel SetModel LongModel Machine VmSpec VmProofs MemProofs MultiProofs
  OptSpec OptUnaryStep ExprModel ExprSpec ExprRun ExprOps ExprLoad ExprProofs ExprMain ExprTotal StmtModel StmtSpec StmtPlain StmtRun StmtStore StmtStep
  StmtMain StmtSound StmtTotal ActModel ActSpec BlockModel BlockSpec.
From Verif Require DeclModel.
Import ListNotations.
Open Scope Z_scope.

(** ** Initial values *)

Definition assigned (l : list (var * Z)) (r : env) : env := fold_left (fun r xz => set r (fst xz) (snd xz)) l r.
Lemma assigned_cons y z l r : assigned ((y, z) :: l) r = assigned l (set r y z).
Proof. reflexivity. Qed.
Lemma assigned_other l : forall r x, ~ In x (map fst l) -> assigned l r x = r x.
Proof.
  induction l as [|[y z] l IH]; intros r x N; [reflexivity|]. rewrite assigned_cons.
  cbn [map fst In] in N. rewrite IH by tauto. apply set_other. intros ->. tauto.
Qed.
Lemma assigned_in l : forall r x, In x (map fst l) -> exists z, In (x, z) l /\ assigned l r x = z.
Proof.
  induction l as [|[y z] l IH]; intros r x N; [destruct N|]. rewrite assigned_cons.
  assert (D : In x (map fst l) \/ ~ In x (map fst l)).
  { destruct (existsb (var_eqb x) (map fst l)) eqn:E; [left|right].
    - apply existsb_exists in E. destruct E as (w & W1 & W2). apply var_eqb_iff in W2. subst w. exact W1.
    - intros I. assert (existsb (var_eqb x) (map fst l) = true) by (apply existsb_exists; exists x; split; [exact I|apply var_eqb_iff; reflexivity]). congruence. }
  destruct D as [I|I].
  - destruct (IH (set r y z) x I) as (w & W1 & W2). exists w. split; [right; exact W1|exact W2].
  - destruct N as [E|N]; [|tauto]. cbn [fst] in E. subst y. exists z. split; [left; reflexivity|]. rewrite assigned_other by exact I. apply set_same.
Qed.
Lemma once_fun (l : list (var * Z)) x z w : NoDup (map fst l) -> In (x, z) l -> In (x, w) l -> z = w.
Proof.
  induction l as [|[y v] l IH]; intros N A B; [destruct A|]. cbn [map fst] in N. inversion N as [|? ? N1 N2]; subst.
  assert (X : forall u, In (x, u) l -> In x (map fst l)) by (intros u U; apply (in_map fst) in U; exact U).
  destruct A as [A|A], B as [B|B].
  - congruence.
  - injection A as -> ->. destruct N1. eapply X; eauto.
  - injection B as -> ->. destruct N1. eapply X; eauto.
  - apply IH; assumption.
Qed.
Lemma assigned_started l1 l2 ini r r1 : NoDup (map fst ini) -> (forall a, In a ini <-> In a l1 \/ In a l2) -> started ini r r1 ->
  forall x, r1 x = assigned l2 (assigned l1 r) x.
Proof.
  intros N Eq (S1 & S2) x.
  assert (M : forall l, (forall a, In a l -> In a ini) -> In x (map fst l) -> In x (map fst ini)).
  { intros l Hl I. apply in_map_iff in I. destruct I as (a & <- & A). apply (in_map fst), Hl, A. }
  assert (D : forall l : list (var * Z), In x (map fst l) \/ ~ In x (map fst l)).
  { intros l. destruct (existsb (var_eqb x) (map fst l)) eqn:E; [left|right].
    - apply existsb_exists in E. destruct E as (w & W1 & W2). apply var_eqb_iff in W2. subst w. exact W1.
    - intros I. assert (existsb (var_eqb x) (map fst l) = true) by (apply existsb_exists; exists x; split; [exact I|apply var_eqb_iff; reflexivity]). congruence. }
  destruct (D l2) as [I|I].
  - destruct (assigned_in l2 (assigned l1 r) x I) as (z & Z1 & ->). apply S1. apply Eq. auto.
  - rewrite (assigned_other l2) by exact I. destruct (D l1) as [J|J].
    + destruct (assigned_in l1 r x J) as (z & Z1 & ->). apply S1. apply Eq. auto.
    + rewrite (assigned_other l1) by exact J. apply S2. intros K. apply in_map_iff in K. destruct K as (a & <- & A). apply Eq in A.
      destruct A as [A|A]; [apply J|apply I]; apply (in_map fst); exact A.
Qed.

Definition store_value (lev : Z) (xz : var * Z) : list opType := lpush (snd xz mod 65536) :: store_code lev (fst xz).
Definition settable (lev : Z) (xs : list var) (xz : var * Z) : Prop :=
  In (fst xz) xs /\ class_of (vty (fst xz)) <> None /\ is32 (vty (fst xz)) = false /\ storable (vty (fst xz)) (snd xz) = true.

Lemma s16_mod z : s16 (u16 z) mod 65536 = z mod 65536.
Proof. unfold s16, u16. rewrite Z.mod_mod by lia. destruct (z mod 65536 <? 32768); [apply Z.mod_mod; lia|]. lia. Qed.

Definition is_file (i : initial) : bool := match i with IFile _ _ => true | _ => false end.

Section Init.
  Variable lev : Z.

  Lemma gives_basic i x z T O E l C B A : gives i x z -> addressable lev x ->
    basic_initialization i (mkComp T O E l lev C B A) = mkComp T (O ++ if is_file i then store_value lev (x, z) else []) E l lev C B A /\
    set_initial_value i (mkComp T O E l lev C B A) = SDone (mkComp T (O ++ if is_file i then [] else store_value lev (x, z)) E l lev C B A).
  Proof.
    intros G Ad. destruct G as [v x n H1 H2 H3 H4|v x z junk H1 H2 H3 H4 H5].
    - cbn [is_file]. split.
      + cbn [basic_initialization]. rewrite emit_push by lia. unfold append; cbn [toks out errs g_label g_level g_continue g_break g_adjust].
        rewrite (c_ref _ _ _ _ _ _ _ _ oSTS _ x); [|cbn; tauto|exact H1|exact H2|exact Ad].
        unfold store_value, store_code. cbn [fst snd]. rewrite H3. cbn [is32 class_of store_op]. rewrite <- app_assoc. reflexivity.
      + cbn [set_initial_value]. rewrite app_nil_r. reflexivity.
    - cbn [is_file add_var_initializer]. unfold add_var_initializer. cbn [is_file]. split; [cbn [basic_initialization]; rewrite app_nil_r; reflexivity|]. cbn [set_initial_value].
      assert (R : -32768 <= s16 (u16 z) <= 65535) by (pose proof (s16_range (u16 z)); lia).
      unfold store_value, store_code. cbn [fst snd].
      assert (X : forall k, In k [oLDS; oLDSB; oULDSB; oLDSM; oSTS; oSTSB; oSTSM] ->
        stack_ref k v (data_op oPUSH (s16 (u16 z)) (mkComp T O E l lev C B A)) =
        mkComp T (O ++ [lpush (z mod 65536); refer lev k x]) E l lev C B A).
      { intros k K. rewrite emit_push by exact R. unfold append; cbn [toks out errs g_label g_level g_continue g_break g_adjust].
        rewrite (c_ref _ _ _ _ _ _ _ _ k _ x); [|exact K|exact H1|exact H2|exact Ad]. rewrite s16_mod, <- app_assoc. reflexivity. }
      destruct (vty x) eqn:Y; try (exfalso; apply H3; reflexivity); try (exfalso; apply H4; reflexivity); cbn [kind_of is32 class_of store_op].
      all: match goal with |- (if ?b then _ else _) = _ => let v := eval vm_compute in b in change b with v; cbv iota end.
      all: try (match goal with |- (if ?b then _ else _) = _ => let v := eval vm_compute in b in change b with v; cbv iota end).
      all: rewrite X by (cbn; tauto); reflexivity.
  Qed.

  Lemma gives_settable i x z xs : gives i x z -> In x xs -> settable lev xs (x, z).
  Proof.
    intros G I. unfold settable. cbn [fst snd]. destruct G as [v x n H1 H2 H3 H4|v x z junk H1 H2 H3 H4 H5].
    - rewrite H3. repeat split; auto; try discriminate. cbn. lia.
    - repeat split; auto. destruct (vty x); try reflexivity; exfalso; apply H4; reflexivity.
  Qed.

  Lemma c_initialization inits ini : Forall2 (fun i xz => gives i (fst xz) (snd xz)) inits ini ->
    (forall x, In x (map fst ini) -> addressable lev x) ->
    exists l1 l2, (forall a, In a ini <-> In a l1 \/ In a l2) /\
      (forall T O E l C B A, fold_left (fun c i => basic_initialization i c) inits (mkComp T O E l lev C B A) =
         mkComp T (O ++ flat_map (store_value lev) l1) E l lev C B A) /\
      (forall T O E l C B A, set_initial_values inits (mkComp T O E l lev C B A) =
         SDone (mkComp T (O ++ flat_map (store_value lev) l2) E l lev C B A)).
  Proof.
    induction 1 as [|i [x z] inits ini G F IH]; intros Ad.
    - exists [], []. split; [cbn; tauto|]. split; intros; cbn; rewrite app_nil_r; reflexivity.
    - destruct IH as (l1 & l2 & I1 & I2 & I3); [intros y Hy; apply Ad; right; exact Hy|]. cbn [fst snd] in G.
      assert (Ax : addressable lev x) by (apply Ad; left; reflexivity).
      exists (if is_file i then (x, z) :: l1 else l1), (if is_file i then l2 else (x, z) :: l2). split; [|split].
      + intros a. cbn [In]. rewrite I1. destruct (is_file i); cbn [In]; tauto.
      + intros T O E l C B A. cbn [fold_left]. rewrite (proj1 (gives_basic i x z T O E l C B A G Ax)), I2. destruct (is_file i); cbn [flat_map]; rewrite <- ?app_assoc; reflexivity.
      + intros T O E l C B A. cbn [set_initial_values]. rewrite (proj2 (gives_basic i x z T O E l C B A G Ax)). cbn [binds]. rewrite I3. destruct (is_file i); cbn [flat_map]; rewrite <- ?app_assoc; reflexivity.
  Qed.
End Init.

Section Run.
  Variables (lev : Z) (xs : list var) (adr : var -> Z) (links : Z -> Prop) (base : Z) (s0 : st).
  Hypothesis P : placed lev xs adr links base s0.
  Hypothesis Even : c_ssz (cf s0) mod 2 = 0.
  Notation ready := (ready xs adr links base s0).
  Notation moves := (moves xs adr).

  Lemma run_value prog i xz s r : stands prog i (store_value lev xz) -> settable lev xs xz -> ready s r -> room s 2 ->
    exists s', runs prog (i, s) ((i + length (store_value lev xz))%nat, s') /\ moves s s' [] (set r (fst xz) (snd xz)).
  Proof.
    destruct xz as [x z]. cbn [fst snd]. intros St (Ix & Cl & L & Sz) Rd Rm. cbn [fst snd] in *. unfold store_value in *. cbn [fst snd] in *.
    apply stands_cons in St. destruct St as (S1 & S2).
    assert (Rw : rewrites (lpush (z mod 65536)) 1 [] [z mod 65536]).
    { Local Transparent rewrites. intros s1 R1 _ _. unfold lpush.
      destruct (push_insn s1 0 (z mod 65536) R1 ltac:(pose proof (Z.mod_pos_bound z 65536); lia)) as (s2 & E2 & F2 & _). exists s2. auto. }
    destruct (run_insn lev xs adr links base s0 P Even prog i (lpush (z mod 65536)) 1 s s [] [] [z mod 65536] r r S1 eq_refl Rw Rd) as (s1 & E1 & M1).
    { apply (moves_refl xs adr links base s0 s r Rd). }
    { apply (room_mono _ _ _ Rm). lia. }
    cbn [app] in M1.
    destruct (run_storing lev xs adr links base s0 P Even prog (S i) x s s1 [] r r z S2 Rd) as (s2 & E2 & M2); auto.
    { cbn [app]. unfold words. rewrite L. exact M1. }
    { pose proof (moves_room xs adr s s1 [z mod 65536] r 2 M1 Rm) as X. cbn [length] in X. apply (room_mono _ _ _ X). lia. }
    exists s2. split; [|exact M2]. apply (runs_trans _ _ _ _ E1).
    replace (i + length (lpush (z mod 65536) :: store_code lev x))%nat with (S i + length (store_code lev x))%nat by (cbn [length]; lia). exact E2.
  Qed.

  Lemma run_values prog l : forall i s r, stands prog i (flat_map (store_value lev) l) -> Forall (settable lev xs) l -> ready s r -> room s 2 ->
    exists s', runs prog (i, s) ((i + length (flat_map (store_value lev) l))%nat, s') /\ moves s s' [] (assigned l r).
  Proof.
    induction l as [|[x z] l IH]; intros i s r St F Rd Rm.
    - exists s. cbn [flat_map length]. rewrite Nat.add_0_r. split; [apply runs_refl|apply (moves_refl xs adr links base s0 s r Rd)].
    - cbn [flat_map] in *. apply stands_app in St. destruct St as (S1 & S2). inversion F as [|? ? F1 F2]; subst.
      destruct (run_value prog i (x, z) s r S1 F1 Rd Rm) as (s1 & E1 & M1). cbn [fst snd] in M1.
      pose proof (moves_ready lev xs adr links base s0 P _ _ _ _ _ Rd M1) as Rd1.
      destruct (IH _ s1 _ S2 F2 Rd1) as (s2 & E2 & M2).
      { pose proof (moves_room xs adr s s1 [] _ 2 M1 Rm) as X. cbn [length] in X. apply (room_mono _ _ _ X). lia. }
      exists s2. split.
      + apply (runs_trans _ _ _ _ E1). rewrite app_length, Nat.add_assoc. exact E2.
      + rewrite assigned_cons. apply (moves_again lev xs adr links base s0 P s s1 [] r _ _ s2 Rd M1 M2).
  Qed.
End Run.


(** ** Blocks *)

Lemma whole_eq d : DeclModel.INT_ALIGNUP d = whole d.
Proof. unfold DeclModel.INT_ALIGNUP, whole. lia. Qed.

Lemma run_inds prog i v s : nth_error prog i = Some (mkOp oINDS 0 (v mod 65536)) -> -32768 <= v <= 32767 ->
  0 <= sp s + v < c_ssz (cf s) -> c_ssz (cf s) <= 65536 ->
  exists s', runs prog (i, s) (S i, s') /\ same_regs s s' /\ sp s' = sp s + v /\ forall j, rd s' j = rd s j.
Proof.
  intros N V B Z1. pose proof (flow_inds s (v mod 65536) ltac:(apply Z.mod_pos_bound; lia)) as F.
  assert (X : s16 (v mod 65536) = v) by (change (v mod 65536) with (u16 v); rewrite s16_u16, s16_small; lia).
  rewrite X in F. replace ((0 <=? sp s + v) && (sp s + v <? c_ssz (cf s))) with true in F by lia.
  eexists. split; [|split; [|split]].
  - apply runs_one. apply (step_falls prog i s _ _ N eq_refl F eq_refl).
  - unfold same_regs. cbn. tauto.
  - cbn [sp with_pc with_sp]. apply u16_small. lia.
  - reflexivity.
Qed.

(** The code of the nested procedures *)
Definition nested_code (k label : Z) (inner : option (list opType)) : list opType :=
  match inner with None => [] | Some code => (if (0 <? label) && (0 <? k) then [mkOp oJMP 0 label] else []) ++ code end.
Lemma append_all code : forall T O E l L C B A,
  fold_left (fun c p => append p c) code (mkComp T O E l L C B A) = mkComp T (O ++ code) E l L C B A.
Proof.
  induction code as [|p code IH]; intros; cbn [fold_left]; [rewrite app_nil_r; reflexivity|].
  unfold append at 2. cbn [toks out errs g_label g_level g_continue g_break g_adjust]. rewrite IH, <- app_assoc. reflexivity.
Qed.
Lemma c_nested label inner T O E l L C B A : 0 <= label <= 65535 ->
  nested label inner (mkComp T O E l L C B A) = mkComp T (O ++ nested_code L label inner) E l L C B A.
Proof.
  intros H. destruct inner as [code|]; cbn [nested nested_code]; [|rewrite app_nil_r; reflexivity].
  cbn [g_level]. destruct ((0 <? label) && (0 <? L)).
  - rewrite c_jump by (auto; cbn; tauto). rewrite append_all, <- app_assoc. reflexivity.
  - rewrite append_all. reflexivity.
Qed.

Definition moved (dstack v : Z) : list opType := if dstack =? 0 then [] else [mkOp oINDS 0 (v mod 65536)].
Definition room_for (dstack : Z) (ts : list tok) : Z := whole dstack / 2 + 2 * Z.of_nat (length ts) + 2.

(** What the code of a block does *)
Definition block_sim (k : Z) (xs : list var) (dstack : Z) (ini : list (var * Z)) (ts : list tok) (ss : stmts) (main : list opType) : Prop :=
  forall adr links base s0, placed k xs adr links base s0 -> c_ssz (cf s0) mod 2 = 0 ->
  forall prog i, stands prog i main -> forall s r r1 r',
  same_regs s0 s -> (forall j, links j -> rd s j = rd s0 j) -> base <= (sp s + whole dstack) / 2 -> holding xs adr s r ->
  room s (room_for dstack ts) -> started ini r r1 -> means_seq ss r1 Normal r' ->
  exists s', runs prog (i, s) ((i + length main)%nat, s') /\ effect xs adr s s' 0 r'.

Lemma means_ext_holding xs adr s r r' : holding xs adr s r -> (forall x, r' x = r x) -> holding xs adr s r'.
Proof. intros H E x Hx. rewrite E. apply H, Hx. Qed.

Lemma statements_fuel n m c : (n <= m)%nat -> statements n c <> SNoFuel -> statements m c = statements n c.
Proof.
  intros L N. induction L as [|m L IH]; [reflexivity|].
  destruct (all_skeep m) as (_ & H & _). rewrite <- IH. apply H. rewrite IH. exact N.
Qed.

Theorem block_ok k xs dstack inits ini ts ss : block_text k xs dstack inits ini ts ss ->
  forall label, 0 <= label <= 65535 -> forall inner rest O E l C B, 0 <= l -> l + 2 * Z.of_nat (length ts) <= 65535 ->
  exists main l', l <= l' <= l + 2 * Z.of_nat (length ts) /\ hd_error main = Some (mkOp oLABEL 0 label) /\
    (forall n, (4 * length (ts ++ rest) + 2 <= n)%nat ->
      block n label dstack inner inits (mkComp (ts ++ rest) O E l k C B 0) =
      SDone (mkComp rest (O ++ nested_code k label inner ++ main) E l' k C B 0)) /\
    block_sim k xs dstack ini ts ss main.
Proof.
  intros [Gb Wf Vs Ln Sh In1 On Iv Ds] label Hlab inner rest O E l C B Hl Hl2.
  destruct Gb as [a us ss b Ta Gs Tb].
  destruct (all_sound k xs) as (_ & Snd & _). specialize (Snd us ss Gs false false Wf).
  assert (Ln' : Forall line_ok us /\ line_ok b).
  { unfold line_ok. apply Forall_inv_tail in Ln. apply Forall_app in Ln. destruct Ln as (L1 & L2). split; [exact L1|]. inversion L2; assumption. }
  destruct Ln' as (Ln1 & Ln2).
  assert (Len : length (a :: us ++ [b]) = S (S (length us))) by (cbn [length]; rewrite app_length; cbn [length]; lia).
  rewrite Len in *.
  destruct (c_initialization k inits ini In1 ltac:(intros x Hx; apply (Iv x Hx))) as (l1 & l2 & I1 & I2 & I3).
  assert (St1 : Forall (settable k xs) l1 /\ Forall (settable k xs) l2).
  { assert (X : forall xz, In xz ini -> settable k xs xz).
    { intros [x z] Hx. assert (G : exists i, gives i x z).
      { clear - In1 Hx. induction In1 as [|i y inits ini G F IH]; [destruct Hx|]. destruct Hx as [->|Hx]; [exists i; exact G|apply IH, Hx]. }
      destruct G as (i & G). apply (gives_settable k i x z xs G). apply (Iv x). apply (in_map fst) in Hx. exact Hx. }
    split; apply Forall_forall; intros y Hy; apply X, I1; auto. }
  destruct St1 as (F1 & F2).
  set (d := whole dstack) in *.
  set (O1 := (((O ++ nested_code k label inner) ++ [mkOp oLABEL 0 label]) ++ (moved dstack d)) ++
    flat_map (store_value k) l1 ++ flat_map (store_value k) l2).
  destruct (Snd ltac:(exact Vs) Ln1 (b :: rest) ltac:(cbn [hd In]; rewrite Tb; tauto) Ln2 a O1 E l C B 0) as (ps & l' & N & Hl' & Hc & Hs);
    [lia|lia|discriminate|discriminate|lia|lia|].
  assert (Hc' : forall n, (4 * length ((a :: us ++ [b]) ++ rest) + 2 <= n)%nat ->
    statements n (mkComp (a :: us ++ b :: rest) O1 E l k C B 0) = SDone (mkComp (b :: rest) (O1 ++ ps) E l' k C B 0)).
  { intros n Hn. rewrite <- (Hc (max N n)) by lia. symmetry. apply statements_fuel; [lia|]. apply (all_ends n).
    - rewrite c_token. cbn [hd]. rewrite Ta. discriminate.
    - unfold len. cbn [toks]. replace (a :: us ++ b :: rest) with ((a :: us ++ [b]) ++ rest) by (cbn [app]; rewrite <- app_assoc; reflexivity). exact Hn. }
  assert (Hd : 0 <= d <= 32766 /\ d mod 2 = 0) by (subst d; unfold whole; lia).
  exists (mkOp oLABEL 0 label :: (moved dstack d) ++ flat_map (store_value k) l1 ++ flat_map (store_value k) l2 ++
    ps ++ (moved dstack (- d))), l'.
  split; [lia|]. split; [reflexivity|]. split.
  - intros n Hn. unfold block. rewrite c_nested by exact Hlab. rewrite whole_eq. fold d.
    rewrite c_token. cbn [hd app]. rewrite Ta, Z.eqb_refl. cbn [negb error_if]. rewrite c_label by exact Hlab.
    unfold initialization, compound_statement. unfold moved in *.
    destruct (dstack =? 0) eqn:Dz.
    + rewrite I2, I3. cbn [binds]. rewrite <- (app_assoc us). cbn [app].
      match goal with |- context [mkComp (a :: _) ?o _ _ _ _ _ _] => replace o with O1 by (unfold O1; rewrite app_nil_r, <- !app_assoc; reflexivity) end.
      rewrite Hc' by exact Hn. cbn [binds]. rewrite c_expect by exact Tb. unfold O1. rewrite !app_nil_r, <- !app_assoc. reflexivity.
    + rewrite c_inds by lia. rewrite I2, I3. cbn [binds]. rewrite <- (app_assoc us). cbn [app].
      match goal with |- context [mkComp (a :: _) ?o _ _ _ _ _ _] => replace o with O1 by (unfold O1; rewrite <- !app_assoc; reflexivity) end.
      rewrite Hc' by exact Hn. cbn [binds].
      rewrite c_expect by exact Tb. rewrite c_inds by lia. unfold O1. rewrite <- !app_assoc. reflexivity.
  - intros adr links base s0 P Ev prog i St s r r1 r' Rg Lk Bs Hd1 Rm Sta Me.
    assert (Ci : c_ssz (cf s) = c_ssz (cf s0)) by (destruct Rg as (-> & _); reflexivity).
    pose proof (assigned_started l1 l2 ini r r1 On I1 Sta) as Ext.
    apply stands_cons in St. destruct St as (St0 & St).
    apply stands_app in St. destruct St as (St1 & St). apply stands_app in St. destruct St as (St2 & St).
    apply stands_app in St. destruct St as (St3 & St). apply stands_app in St. destruct St as (St4 & St5).
    destruct Rm as (Rm1 & Rm2 & Rm3 & Rm4). unfold room_for in Rm2. fold d in Rm2. rewrite Len in Rm2.
    assert (X1 : exists s1, runs prog (S i, s) ((S i + length (moved dstack d))%nat, s1) /\
      same_regs s s1 /\ sp s1 = sp s + d /\ forall j, rd s1 j = rd s j).
    { unfold moved in *. destruct (dstack =? 0) eqn:Dz.
      - exists s. cbn [length]. rewrite Nat.add_0_r. split; [apply runs_refl|]. split; [apply same_regs_refl|].
        split; [unfold d, whole; replace dstack with 0 by lia; cbn; lia|reflexivity].
      - apply stands_cons in St1. destruct St1 as (St1 & _). cbn [length]. rewrite Nat.add_1_r.
        apply (run_inds prog (S i) d s St1); lia. }
    destruct X1 as (s1 & E1 & G1 & S1 & M1).
    assert (Rd1 : ready xs adr links base s0 s1 r).
    { split; [apply (same_regs_trans _ _ _ Rg G1)|]. split; [intros j Hj; rewrite M1; apply Lk, Hj|]. split; [rewrite S1; exact Bs|].
      apply (held k xs adr links base s0 P Ev s s1 r Rg G1); auto. }
    assert (Cz : forall t, same_regs s0 t -> c_ssz (cf t) = c_ssz (cf s)) by (intros t (Y & _); rewrite Y; congruence).
    assert (Rm' : forall t, same_regs s0 t -> sp t = sp s + d -> room t (2 * Z.of_nat (length us) + 2)).
    { intros t Y Z1. unfold room. rewrite Z1, (Cz t Y). lia. }
    destruct (run_values k xs adr links base s0 P Ev prog l1 _ s1 r St2 F1 Rd1) as (s2 & E2 & M2).
    { apply (room_mono _ _ _ (Rm' s1 (proj1 Rd1) S1)). lia. }
    pose proof (moves_ready k xs adr links base s0 P _ _ _ _ _ Rd1 M2) as Rd2.
    assert (S2 : sp s2 = sp s + d) by (destruct M2 as (_ & Y & _); cbn [length] in Y; lia).
    destruct (run_values k xs adr links base s0 P Ev prog l2 _ s2 _ St3 F2 Rd2) as (s3 & E3 & M3).
    { apply (room_mono _ _ _ (Rm' s2 (proj1 Rd2) S2)). lia. }
    pose proof (moves_ready k xs adr links base s0 P _ _ _ _ _ Rd2 M3) as Rd3.
    assert (S3 : sp s3 = sp s + d) by (destruct M3 as (_ & Y & _); cbn [length] in Y; lia).
    pose proof (moves_again k xs adr links base s0 P s1 s2 [] r _ _ s3 Rd1 M2 M3) as M13.
    assert (Rd3' : ready xs adr links base s0 s3 r1).
    { destruct Rd3 as (Y1 & Y2 & Y3 & Y4). split; [exact Y1|]. split; [exact Y2|]. split; [exact Y3|]. apply (means_ext_holding _ _ _ _ _ Y4 Ext). }
    destruct (Hs adr links base s0 P Ev prog _ St4 s3 r1 Normal r' Rd3') as (s4 & E4 & M4).
    { rewrite S3, Z.add_0_r. exact Bs. }
    { apply (room_mono _ _ _ (Rm' s3 (proj1 Rd3) S3)). lia. }
    { exact Me. }
    pose proof (moves_ready k xs adr links base s0 P _ _ _ _ _ Rd3' M4) as Rd4.
    pose proof (moves_again k xs adr links base s0 P s1 s3 [] r _ _ s4 Rd1 M13 M4) as M14.
    assert (S4 : sp s4 = sp s + d) by (destruct M4 as (_ & Y & _); cbn [length] in Y; lia).
    assert (X5 : exists s5, runs prog ((S i + length (moved dstack d) + length (flat_map (store_value k) l1)
        + length (flat_map (store_value k) l2) + length ps)%nat, s4) ((S i + length (moved dstack d) + length (flat_map (store_value k) l1)
        + length (flat_map (store_value k) l2) + length ps + length (moved dstack (- d)))%nat, s5) /\
      same_regs s4 s5 /\ sp s5 = sp s /\ forall j, rd s5 j = rd s4 j).
    { unfold moved in *. destruct (dstack =? 0) eqn:Dz.
      - exists s4. cbn [length]. rewrite !Nat.add_0_r. split; [apply runs_refl|]. split; [apply same_regs_refl|].
        split; [rewrite S4; unfold d, whole; replace dstack with 0 by lia; cbn; lia|reflexivity].
      - apply stands_cons in St5. destruct St5 as (St5 & _). cbn [length] in *. rewrite (Nat.add_1_r (_ + length ps)).
        destruct (run_inds prog _ (- d) s4 St5) as (s5 & Y1 & Y2 & Y3 & Y4); try lia.
        { rewrite (Cz s4 (proj1 Rd4)). lia. }
        { rewrite (Cz s4 (proj1 Rd4)). lia. }
        exists s5. split; [exact Y1|]. split; [exact Y2|]. split; [lia|exact Y4]. }
    destruct X5 as (s5 & E5 & G5 & S5 & M5).
    destruct M14 as (T1 & T2 & T3 & T4 & T5).
    exists s5. split; [|split; [|split; [|split]]].
    + apply (runs_trans _ _ _ _ (run_pseudo _ _ s _ St0 eq_refl)). apply (runs_trans _ _ _ _ E1). apply (runs_trans _ _ _ _ E2).
      apply (runs_trans _ _ _ _ E3). apply (runs_trans _ _ _ _ E4).
      match type of E5 with runs _ _ (?q, _) => replace (i + _)%nat with q; [exact E5|] end.
      cbn [length]. rewrite !app_length. lia.
    + apply (same_regs_trans _ _ _ G1). apply (same_regs_trans _ _ _ T1 G5).
    + lia.
    + apply (held k xs adr links base s0 P Ev s4 s5 r'); auto. apply (proj1 Rd4).
    + intros j Hj Nj. rewrite M5, T4, M1; auto. rewrite S1. rewrite S5 in Hj.
      assert (sp s / 2 <= (sp s + d) / 2) by (apply Z.div_le_mono; lia). lia.
Qed.
