(** The instructions selected for operators, constants and variables. *)

From Coq Require Import ZArith Bool List Lia ZifyBool.
From Verif Require Import Words WordLemmas State StateLemmas Opcodes EncodeModel SetModel LongModel Machine VmSpec
  LongSpec VmProofs MemProofs MultiProofs LongProofs ExprModel ExprSpec ExprRun.
Import ListNotations.
Open Scope Z_scope.

(** ** Ranges *)

Lemma inr_bool x : inr xBoolean x = true -> x = 0 \/ x = -1.
Proof. cbn [inr class_of]. lia. Qed.

Lemma inr_cases t z : inr t z = true ->
  match class_of t with
  | Some Signed16 => s16r z | Some Unsigned16 => u16r z | Some Signed32 => s32r z
  | Some Unsigned32 => u32r z | Some Character => 0 <= z <= 255 | Some Logical => z = 0 \/ z = -1
  | None => False end.
Proof. unfold inr, s16r, u16r, s32r, u32r. destruct (class_of t) as [[]|]; lia. Qed.

Lemma limit_some t z w : limit t z = Some w -> w = z /\ inr t z = true.
Proof. unfold limit. destruct (inr t z); [|discriminate]. intros [= <-]. auto. Qed.
Lemma bind_some {A B} (o : option A) (k : A -> option B) r : bind o k = Some r -> exists a, o = Some a /\ k a = Some r.
Proof. destruct o; [|discriminate]. cbn. eauto. Qed.
Lemma if_some {A} (b : bool) (r s : A) : (if b then Some r else None) = Some s -> b = true /\ r = s.
Proof. destruct b; [|discriminate]. intros [= ->]. auto. Qed.

Ltac inrs :=
  repeat match goal with
  | H : inr ?t ?z = true |- _ => apply inr_cases in H; cbn [class_of] in H
  end.

(** ** Multiplying operators *)

Definition mul_result (o : mulop) (x y : Z) : Z :=
  match o with
  | Times => x * y | Div => Z.quot x y | Mod => Z.rem x y | And => Z.land x y
  | Shl => x * 2 ^ y | Shr => x / 2 ^ y
  end.

Lemma value_mul_inv o t x y z : value_mul o t x y = Some z ->
  inr t y = true /\ z = mul_result o x y /\ inr t z = true /\
  match o with
  | Div | Mod => y <> 0
  | Shl | Shr => 0 <= y <= 15 | _ => True
  end /\ match o with Mod => inr t (Z.quot x y) = true | _ => True end.
Proof.
  unfold value_mul. intros H. apply bind_some in H. destruct H as (y' & Y & H).
  apply limit_some in Y. destruct Y as (-> & Y). split; [exact Y|]. destruct o; cbn [mul_result].
  - apply limit_some in H. destruct H as (-> & H). auto.
  - destruct (y =? 0) eqn:E; [discriminate|]. apply limit_some in H. destruct H as (-> & H). repeat split; auto. lia.
  - destruct (y =? 0) eqn:E; [discriminate|]. apply bind_some in H. destruct H as (q & Q & H).
    apply limit_some in H. destruct H as (-> & H). apply limit_some in Q. destruct Q as (_ & Q).
    repeat split; auto. lia.
  - apply limit_some in H. destruct H as (-> & H). auto.
  - destruct ((0 <=? y) && (y <=? 15)) eqn:E; [|discriminate]. apply limit_some in H. destruct H as (-> & H).
    split; [reflexivity|]. split; [exact H|]. split; [lia|exact I].
  - destruct ((0 <=? y) && (y <=? 15)) eqn:E; [|discriminate]. apply limit_some in H. destruct H as (-> & H).
    split; [reflexivity|]. split; [exact H|]. split; [lia|exact I].
Qed.

Ltac pick := eexists; split; [reflexivity|split;
  [intros t c S; cbn [spells_mul spells_add] in S; try destruct S as [S|S]; rewrite S; reflexivity|]].

Lemma mul_sound o a b a' : type_mul o a b = Some a' ->
  exists p, a' = a /\
    (forall t c, spells_mul t o -> mul_op (tk t) a c = append p c) /\
    forall x y z, inr a x = true -> inr b y = true -> value_mul o a x y = Some z ->
      inr a z = true /\ rewrites p 0 (words a x ++ words b y) (words a z).
Proof.
  intros T.
  destruct o, a; try discriminate T; destruct b; try discriminate T; injection T as <-; pick;
    intros x y z X Y V; apply value_mul_inv in V; destruct V as (Y' & E & Z' & V & Q); subst z;
    (split; [exact Z'|]); cbn [words is32 class_of mul_result] in *; inrs.
  all: first [ apply rw_mul | apply rw_umul; assumption | apply rw_dmul; assumption | apply rw_dumul; assumption
             | apply rw_div; assumption | apply rw_udiv; assumption | apply rw_ddiv; assumption | apply rw_dudiv; assumption
             | apply rw_mod; assumption | apply rw_umod; assumption | apply rw_dmod; assumption | apply rw_dumod; assumption
             | apply rw_and | apply rw_dand | apply rw_sll; assumption | apply rw_srl; assumption | apply rw_sra; assumption ].
Qed.

(** ** Adding operators *)

Lemma value_add_inv o t x y z : value_add o t x y = Some z ->
  inr t z = true /\
  match o with
  | Plus => z = x + y /\ (is32 t = true -> inr t y = true) | Minus => z = x - y /\ (is32 t = true -> inr t y = true)
  | Or => inr t y = true /\ z = Z.lor x y | Xor => inr t y = true /\ z = Z.lxor x y
  end.
Proof.
  destruct o; cbn [value_add]; intros H.
  1,2: apply bind_some in H; destruct H as (y' & Y & H); apply limit_some in H; destruct H as (-> & H);
       destruct (is32 t); [apply limit_some in Y; destruct Y as (-> & Y)|injection Y as <-]; repeat split; auto; discriminate.
  all: apply bind_some in H; destruct H as (y' & Y & H); apply limit_some in Y; destruct Y as (-> & Y);
       apply limit_some in H; destruct H as (-> & H); auto.
Qed.

Lemma add_sound o a b a' : type_add o a b = Some a' ->
  exists p, a' = a /\
    (forall t c, spells_add t o -> add_op (tk t) a c = append p c) /\
    forall x y z, inr a x = true -> inr b y = true -> value_add o a x y = Some z ->
      inr a z = true /\ rewrites p 0 (words a x ++ words b y) (words a z).
Proof.
  intros T.
  destruct o, a; try discriminate T; destruct b; try discriminate T; injection T as <-; pick;
    intros x y z X Y V; apply value_add_inv in V; destruct V as (Z' & V);
    (split; [exact Z'|]); cbn [words is32 class_of] in *; try specialize (proj2 V eq_refl) as W; inrs; try (destruct V as (V & V')); subst z.
  all: first [ apply rw_add | apply rw_dadd; assumption | apply rw_sub | apply rw_dsub; assumption
             | apply rw_or | apply rw_dor | apply rw_xor | apply rw_dxor ].
Qed.
