(** The listing of P-code: lines and whole files. *)

From Coq Require Import ZArith Bool String Ascii List Lia ZifyBool.
From Verif Require Import Words State Opcodes Machine LongModel EncodeModel EncodeSpec EncodeProofs.
From Verif Require Import SysioModel SysioSpec SysioText DisModel DisSpec DisProofs.
Import ListNotations.
Open Scope Z_scope.

Definition some {A} (x : option A) : bool := match x with Some _ => true | None => false end.

Definition executedb (o : Z) : bool :=
  if o <? 64 then some (decode_op8 o) else if o <? 128 then some (decode_op16 o)
  else if o <? 192 then some (decode_op24 o) else some (decode_op32 o).

Lemma some_ne {A} (x : option A) : x <> None <-> some x = true.
Proof. destruct x; cbn; split; congruence. Qed.

Lemma executed_b o : 0 <= o < 256 -> (executed o <-> executedb o = true).
Proof.
  intros H. unfold executed, executedb. rewrite !some_ne.
  destruct (o <? 64) eqn:?, (o <? 128) eqn:?, (o <? 192) eqn:?; try lia; intuition lia.
Qed.

Definition listedb (o : Z) : bool := executedb o || (o =? oLABEL) || (o =? oLINE).

(** ** The table *)

(** What is written before the arguments *)
Definition head (o a1 : Z) : list Z :=
  if o =? oLONGOP8 then
    match nth_error longTable8 (Z.to_nat (a1 - 0x40)) with
    | Some n => chars "        " ++ chars n ++ chars " "
    | None => []
    end
  else match nth_error opTable (Z.to_nat o) with
       | Some (n, _, LABEL_DEC) => chars "L"
       | Some (n, _, COMMENT) => chars "; " ++ chars n ++ chars " "
       | Some (n, _, _) => chars "        " ++ chars n ++ chars " "
       | None => []
       end.

(** The facts about one row *)
Definition row (o : Z) : bool :=
  match nth_error opTable (Z.to_nat o) with
  | None => false
  | Some (n, f8, f16) =>
    (negb (listedb o) || (o =? oLONGOP8) ||
     ((match f16 with
       | LABEL_DEC => (o =? oLABEL)
       | COMMENT => (o =? oLINE)
       | NOARG16 => negb (has16 o)
       | XOP => (o =? oSYSIO) && has16 o
       | LBOP => (o =? oSTRLIB) && has16 o
       | _ => has16 o
       end) &&
      (match f8 with
       | NOARG8 => negb (has8 o)
       | FPOP => (o =? oFLOAT) && has8 o
       | SETOP8 => (o =? oSETOP) && has8 o
       | OSOP8 => (o =? oOSOP) && has8 o
       | _ => has8 o
       end))) &&
    (if (o =? oLONGOP8) || (o =? oLONGOP24) || (o =? oLABEL) || (o =? oLINE) then true
     else Bool.eqb (executedb o) (negb (String.eqb n invOp)) && match f16 with LABEL_DEC | COMMENT => false | _ => true end)
  end.

Lemma rows o : 0 <= o < 256 -> row o = true.
Proof.
  intros H. assert (A : forallb row (upto 256) = true) by (vm_compute; reflexivity).
  rewrite forallb_forall in A. apply A, upto_in. lia.
Qed.

(** The heads: none is the beginning of another *)
Definition keys : list (Z * Z) :=
  map (fun o => (o, 0)) (filter (fun o => listedb o && negb (o =? oLONGOP8)) (upto 256)) ++
  map (fun i => (oLONGOP8, 0x40 + i)) (upto 41).

Lemma heads_check :
  forallb (fun k => negb (existsb (Z.eqb 10) (head (fst k) (snd k))) &&
    forallb (fun k' => negb (prefixb (head (fst k) (snd k)) (head (fst k') (snd k'))) ||
                       ((fst k =? fst k') && (snd k =? snd k'))) keys) keys = true.
Proof. vm_compute. reflexivity. Qed.

Definition key (o : opType) : Z * Z := (op o, if op o =? oLONGOP8 then arg1 o else 0).

Lemma long_range a : decode_long8 a <> None -> 0x40 <= a <= 0x68.
Proof.
  intros H. destruct (Z_lt_dec a 0x40); [exfalso|destruct (Z_lt_dec 0x68 a); [exfalso|lia]].
  - apply H. clear H. destruct a as [|p|p]; try reflexivity. do 7 (destruct p as [p|p|]; try reflexivity; try lia).
  - apply H. clear H. destruct a as [|p|p]; try lia. do 7 (destruct p as [p|p|]; try reflexivity; try lia).
Qed.

Lemma key_in o : listable o -> In (key o) keys.
Proof.
  intros ((W1 & W2 & W3 & _) & L & S). unfold key, keys. apply in_or_app. destruct (op o =? oLONGOP8) eqn:E.
  - right. apply Z.eqb_eq in E. destruct S as (_ & _ & _ & _ & _ & S). specialize (S E). apply long_range in S.
    apply in_map_iff. exists (arg1 o - 0x40). split; [rewrite E; f_equal; lia|]. apply upto_in. lia.
  - left. apply in_map_iff. exists (op o). split; [reflexivity|]. apply filter_In. split; [apply upto_in; lia|].
    rewrite E, andb_true_r. unfold listedb. rewrite executed_b in L by lia.
    destruct L as [->|[-> | ->]]; reflexivity.
Qed.

Lemma head_key o : head (op o) (arg1 o) = head (fst (key o)) (snd (key o)).
Proof. unfold key. cbn [fst snd]. destruct (op o =? oLONGOP8) eqn:E; [reflexivity|]. unfold head. rewrite E. reflexivity. Qed.

Lemma heads o o' x y : listable o -> listable o' ->
  head (op o) (arg1 o) ++ x = head (op o') (arg1 o') ++ y -> key o = key o'.
Proof.
  intros H H' E. rewrite !head_key in E. pose proof (key_in o H) as K. pose proof (key_in o' H') as K'.
  pose proof heads_check as C. rewrite forallb_forall in C.
  assert (P : forall k k', In k keys -> In k' keys -> prefixb (head (fst k) (snd k)) (head (fst k') (snd k')) = true -> k = k').
  { intros k k' I I' P. specialize (C k I). apply andb_true_iff in C as [_ C]. rewrite forallb_forall in C. specialize (C k' I').
    rewrite P in C. cbn [negb orb] in C. apply andb_true_iff in C as [C1 C2]. apply Z.eqb_eq in C1, C2.
    destruct k, k'. cbn in *. congruence. }
  apply prefix_or in E as [E|E]; [apply P; auto | symmetry; apply P; auto].
Qed.

Lemma head_newline o : listable o -> ~ In 10 (head (op o) (arg1 o)).
Proof.
  intros H. rewrite head_key. pose proof heads_check as C. rewrite forallb_forall in C. specialize (C _ (key_in o H)).
  apply andb_true_iff in C as [C _]. apply negb_true_iff in C. apply not_in_b. exact C.
Qed.

(** ** One line *)

(** The text of an instruction that is neither a label nor a comment *)
Definition plain (c : Z) (f8 : fmt8) (f16 : fmt16) (b1 b2 : Z) : option (list Z) :=
  match (if has8 c then show8 f8 b1 else Some []), (if has16 c then show16 f16 b2 else Some []) with
  | Some x, Some y => Some (head c b1 ++ (x ++ (if has16 c then if has8 c then chars ", " else [] else []) ++ y) ++ [10])
  | _, _ => None
  end.

Lemma disasm_plain c n f8 f16 b1 b2 : nth_error opTable (Z.to_nat c) = Some (n, f8, f16) -> (c =? oLONGOP8) = false ->
  f16 <> LABEL_DEC -> f16 <> COMMENT -> disasm (mkOp c b1 b2) = plain c f8 f16 b1 b2.
Proof.
  intros T EL H1 H2. unfold disasm, plain, head. cbn [op arg1 arg2]. rewrite T, EL. cbv iota beta zeta.
  change (chars (String "010" "")) with [10].
  destruct f16; try congruence; destruct (has8 c), (has16 c); cbn [cat];
    try (destruct (show8 f8 b1); cbn [cat]; [|reflexivity]); try (match goal with |- context [show16 ?f ?b] => destruct (show16 f b) end; cbn [cat]; [|reflexivity]);
    rewrite ?app_nil_r, <- ?app_assoc; try reflexivity.
Qed.

Definition arg_formats (c : Z) (f8 : fmt8) (f16 : fmt16) : Prop :=
  (has8 c = true -> f8 <> NOARG8) /\ (has16 c = true -> f16 <> NOARG16).

Lemma plain_ok c f8 f16 a1 a2 : wf_op (mkOp c a1 a2) -> arg_formats c f8 f16 -> f16 <> LABEL_DEC -> f16 <> COMMENT ->
  (c =? oLONGOP8) = false -> sub8 f8 a1 = true -> sub16 f16 a2 = true ->
  exists t, plain c f8 f16 a1 a2 = Some (head c a1 ++ t ++ [10]) /\ ~ In 10 t /\
  forall b1 b2, wf_op (mkOp c b1 b2) -> sub8 f8 b1 = true -> sub16 f16 b2 = true ->
    plain c f8 f16 b1 b2 = Some (head c b1 ++ t ++ [10]) -> a1 = b1 /\ a2 = b2.
Proof.
  intros (W1 & W2 & W3 & W4 & W5) (R8 & R16) H1 H2 EL S8 S16. cbn [op arg1 arg2] in *.
  assert (HD : forall b1, head c b1 = head c a1) by (intros b1; unfold head; rewrite EL; reflexivity).
  unfold plain. destruct (has8 c) eqn:B8; destruct (has16 c) eqn:B16.
  - destruct (show8_ok f8 a1 (R8 eq_refl) W2 S8) as (t8 & T1 & T2 & T3 & T4).
    destruct (show16_ok f16 a2 (R16 eq_refl) H1 H2 W3 S16) as (t16 & U1 & U2 & U3).
    rewrite T1, U1. eexists. split; [reflexivity|]. split.
    + intros I. apply in_app_or in I as [I|I]; [auto|]. apply in_app_or in I as [I|I]; [cbn in I; lia | auto].
    + intros b1 b2 (V1 & V2 & V3 & _) Q8 Q16 E. cbn [op arg1 arg2] in *.
      destruct (show8_ok f8 b1 (R8 eq_refl) V2 Q8) as (u8 & X1 & _ & X3 & _).
      destruct (show16_ok f16 b2 (R16 eq_refl) H1 H2 V3 Q16) as (u16 & Y1 & _ & _).
      rewrite X1, Y1, (HD b1) in E. apply some_inj in E. apply app_inv_head in E. apply app_inv_tail in E.
      change (chars ", ") with [44; 32] in E. cbn [app] in E. apply split_at in E as [E1 E2]; [|assumption|assumption].
      apply cons_inj in E2 as [_ E2]. subst. split; [apply T4; auto | apply U3; auto].
  - destruct (show8_ok f8 a1 (R8 eq_refl) W2 S8) as (t8 & T1 & T2 & T3 & T4).
    rewrite T1. eexists. split; [reflexivity|]. split.
    + intros I. cbn [app] in I. rewrite app_nil_r in I. auto.
    + intros b1 b2 (V1 & V2 & V3 & V4 & V5) Q8 Q16 E. cbn [op arg1 arg2] in *.
      destruct (show8_ok f8 b1 (R8 eq_refl) V2 Q8) as (u8 & X1 & _ & X3 & _).
      rewrite X1, (HD b1) in E. apply some_inj in E. apply app_inv_head in E. apply app_inv_tail in E. cbn [app] in E. rewrite !app_nil_r in E.
      subst. split; [apply T4; auto | rewrite W5, V5 by exact B16; reflexivity].
  - destruct (show16_ok f16 a2 (R16 eq_refl) H1 H2 W3 S16) as (t16 & U1 & U2 & U3).
    rewrite U1. eexists. split; [reflexivity|]. split.
    + intros I. exact (U2 I).
    + intros b1 b2 (V1 & V2 & V3 & V4 & V5) Q8 Q16 E. cbn [op arg1 arg2] in *.
      destruct (show16_ok f16 b2 (R16 eq_refl) H1 H2 V3 Q16) as (u16 & Y1 & _ & _).
      rewrite Y1, (HD b1) in E. apply some_inj in E. apply app_inv_head in E. apply app_inv_tail in E. cbn [app] in E.
      subst. split; [rewrite W4, V4 by exact B8; reflexivity | apply U3; auto].
  - eexists. split; [reflexivity|]. split; [intros []|]. intros b1 b2 (V1 & V2 & V3 & V4 & V5) _ _ _. cbn [op arg1 arg2] in *.
    split; [rewrite W4, V4 by exact B8; reflexivity | rewrite W5, V5 by exact B16; reflexivity].
Qed.

(** The arguments of an instruction are shown by a text that determines them. *)
Lemma line_ok o : listable o -> exists t,
  line o = Some (head (op o) (arg1 o) ++ t ++ [10]) /\ ~ In 10 t /\
  forall o', listable o' -> key o' = key o -> line o' = Some (head (op o') (arg1 o') ++ t ++ [10]) -> o = o'.
Proof.
  intros H. pose proof H as ((W1 & W2 & W3 & W4 & W5) & L & S). destruct o as [c a1 a2]. cbn [op arg1 arg2] in *.
  rewrite executed_b in L by lia.
  destruct (c =? oLONGOP8) eqn:EL.
  - apply Z.eqb_eq in EL. subst c. destruct S as (_ & _ & _ & _ & _ & S). specialize (S eq_refl). cbn [arg1] in S. apply long_range in S.
    assert (Z.land a1 0x3f = a1 - 0x40) as E.
    { change 0x3f with (Z.ones 6). rewrite Z.land_ones by lia. change (2 ^ 6) with 64. Z.to_euclidean_division_equations. lia. }
    exists []. split; [|split; [intros []|]].
    + unfold line. cbn [op]. change ((oLONGOP8 =? oLONGOP8) || (oLONGOP8 =? oLONGOP24)) with true. cbv iota. unfold disasm_long, head. cbn [op arg1 arg2].
      rewrite E. change (oLONGOP8 =? oLONGOP8) with true. change (has8 oLONGOP8) with true. change (has16 oLONGOP8) with false. cbv iota.
      destruct (nth_error longTable8 (Z.to_nat (a1 - 64))) eqn:N.
      * rewrite <- !app_assoc. reflexivity.
      * apply nth_error_None in N. cbn [length longTable8] in N. lia.
    + intros [c' b1 b2] ((V1 & V2 & V3 & V4 & V5) & _) K _. unfold key in K. cbn [op arg1 arg2] in *. change (oLONGOP8 =? oLONGOP8) with true in K. cbv iota in K.
      injection K as K1 K2. subst c'. change (oLONGOP8 =? oLONGOP8) with true in K2. cbv iota in K2.
      rewrite K2, (W5 eq_refl), (V5 eq_refl). reflexivity.
  - assert (EL4 : (c =? oLONGOP24) = false).
    { destruct (c =? oLONGOP24) eqn:E; [|reflexivity]. apply Z.eqb_eq in E. subst c. destruct L as [L|[L|L]]; discriminate L. }
    pose proof (rows c W1) as R. unfold row in R.
    assert (LB : listedb c = true) by (unfold listedb; destruct L as [->|[-> | ->]]; reflexivity).
    destruct (nth_error opTable (Z.to_nat c)) as [[[n f8] f16]|] eqn:T; [|discriminate].
    rewrite LB, EL in R. cbn [negb orb] in R. apply andb_true_iff in R as [R _]. apply andb_true_iff in R as [R16 R8].
    assert (LN : forall b1 b2, line (mkOp c b1 b2) = disasm (mkOp c b1 b2)) by (intros; unfold line; cbn [op]; rewrite EL, EL4; reflexivity).
    assert (K0 : forall o', key o' = key (mkOp c a1 a2) -> op o' = c).
    { intros o' K. unfold key in K. injection K as K _. exact K. }
    (* the 8-bit argument *)
    assert (S8 : sub8 f8 a1 = true /\ forall b1 b2, subcode (mkOp c b1 b2) -> sub8 f8 b1 = true).
    { assert (Q : forall b1 b2, subcode (mkOp c b1 b2) -> sub8 f8 b1 = true).
      { intros b1 b2 (Q1 & Q2 & Q3 & _). cbn [op arg1 arg2] in *. destruct f8; try reflexivity;
          apply andb_true_iff in R8 as [R8 _]; apply Z.eqb_eq in R8; cbn [sub8]; [specialize (Q1 R8) | specialize (Q2 R8) | specialize (Q3 R8)]; lia. }
      split; [exact (Q a1 a2 S) | exact Q]. }
    assert (S16 : sub16 f16 a2 = true /\ forall b1 b2, subcode (mkOp c b1 b2) -> sub16 f16 b2 = true).
    { assert (Q : forall b1 b2, subcode (mkOp c b1 b2) -> sub16 f16 b2 = true).
      { intros b1 b2 (_ & _ & _ & Q1 & Q2 & _). cbn [op arg1 arg2] in *. destruct f16; try reflexivity;
          apply andb_true_iff in R16 as [R16 _]; apply Z.eqb_eq in R16; cbn [sub16]; [specialize (Q2 R16) | specialize (Q1 R16)]; lia. }
      split; [exact (Q a1 a2 S) | exact Q]. }
    destruct S8 as [S8 S8'], S16 as [S16 S16'].
    assert (F : f16 = LABEL_DEC \/ f16 = COMMENT \/ (f16 <> LABEL_DEC /\ f16 <> COMMENT))
      by (destruct f16; auto; right; right; split; discriminate).
    destruct F as [->|[->|[F1 F2]]].
    1:{ apply Z.eqb_eq in R16. subst c. vm_compute in T. injection T as <- <-.
        exists (hex4 a2 ++ chars ":  "). split; [|split].
        - rewrite LN. unfold disasm, head. cbn [op arg1 arg2]. change (oLABEL =? oLONGOP8) with false. cbv iota.
          reflexivity.
        - intros I. apply in_app_or in I as [I|I]; [apply hex4_chars in I; lia | cbn in I; lia].
        - intros [c' b1 b2] ((V1 & V2 & V3 & V4 & V5) & _) K E. apply K0 in K. cbn [op arg1 arg2] in *. subst c'.
          rewrite LN in E. rewrite (W4 eq_refl), (V4 eq_refl). f_equal. cbn [op arg1] in E.
          change (disasm (mkOp oLABEL b1 b2)) with (Some (chars "L" ++ (hex4 b2 ++ chars ":  ") ++ [10])) in E.
          apply some_inj in E. change (head oLABEL b1) with (chars "L") in E. apply app_inv_head in E. apply app_inv_tail in E. apply app_inv_tail in E.
          apply hex4_inj; auto. }
    1:{ apply Z.eqb_eq in R16. subst c. vm_compute in T. injection T as <- <-.
        assert (D : forall b1 b2, disasm (mkOp oLINE b1 b2) = Some (head oLINE b1 ++ (decimal b1 ++ 58 :: decimal b2) ++ [10])).
        { intros b1 b2. unfold disasm. cbn [op arg1 arg2]. change (has8 oLINE) with true. change (has16 oLINE) with true.
          change (nth_error opTable (Z.to_nat oLINE)) with (Some ("LINE "%string, SHORTWORD, COMMENT)). cbv iota beta zeta. unfold cat.
          reflexivity. }
        exists (decimal a1 ++ 58 :: decimal a2). split; [|split].
        - rewrite LN. apply D.
        - intros I. apply in_app_or in I as [I|[I|I]]; [apply decimal_chars in I; lia | lia | apply decimal_chars in I; lia].
        - intros [c' b1 b2] ((V1 & V2 & V3 & V4 & V5) & _) K E. apply K0 in K. cbn [op arg1 arg2] in *. subst c'.
          rewrite LN, D in E. apply some_inj in E. apply app_inv_head in E. apply app_inv_tail in E.
          apply split_at in E as [E1 E2]; [|intros I; apply decimal_chars in I; lia|intros I; apply decimal_chars in I; lia].
          apply decimal_inj in E1, E2; try lia. congruence. }
    assert (G : forall b1 b2, line (mkOp c b1 b2) = plain c f8 f16 b1 b2)
      by (intros; rewrite LN; apply disasm_plain with n; assumption).
    assert (R : arg_formats c f8 f16).
    { split; intros B E; subst; rewrite B in *; discriminate. }
    assert (W : wf_op (mkOp c a1 a2)) by exact (proj1 H).
    destruct (plain_ok c f8 f16 a1 a2 W R F1 F2 EL S8 S16) as (t & T1 & T2 & T3).
    exists t. split; [rewrite G; exact T1|]. split; [exact T2|].
    intros [c' b1 b2] (V & _ & S') K E. apply K0 in K. cbn [op arg1 arg2] in *. subst c'.
    rewrite G in E. destruct (T3 b1 b2 V (S8' b1 b2 S') (S16' b1 b2 S') E) as [-> ->]. reflexivity.
Qed.
