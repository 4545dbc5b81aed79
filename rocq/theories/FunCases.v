(** The standard functions, and what contradicts their definition. *)

From Coq Require Import ZArith Bool List Lia ZifyBool.
From Verif Require Import Words State Opcodes EncodeModel Machine VmSpec ExprModel ExprSpec ExprOps ExprCases.
Import ListNotations.
Open Scope Z_scope.

(** The result of a standard function of a number *)
Definition fun_result (g : sfun) (x z : Z) : Prop :=
  match g with
  | FnAbs => 0 <= z /\ (z = x \/ z = - x)
  | FnSqr => z = x * x
  | FnPred => z + 1 = x
  | FnSucc => z = x + 1
  | FnOrd | FnChr => z = x
  | FnOdd => (z = -1 /\ exists k, x = 2 * k + 1) \/ (z = 0 /\ exists k, x = 2 * k)
  end.

Definition call_of (g : sfun) (e : expr) : expr := ESimple (STerm false (TFactor (FFun g e))).

Lemma fun_value g x z t T : type_fun g t = Some T -> fun_result g x z -> inr T z = true -> value_fun g t x = Some z.
Proof.
  intros Y R I. destruct g; cbn [type_fun fun_result value_fun] in *; apply if_some in Y; destruct Y as (Y & <-).
  - assert (t = xInteger) by (destruct t; try discriminate Y; reflexivity). subst t.
    replace (Z.abs x) with z by lia. unfold limit. rewrite I. reflexivity.
  - subst z. unfold limit. rewrite I. reflexivity.
  - replace (x - 1) with z by lia. unfold limit. rewrite I. reflexivity.
  - subst z. unfold limit. rewrite I. reflexivity.
  - subst z. unfold limit. rewrite I. reflexivity.
  - f_equal. destruct R as [(-> & k & ->)|(-> & k & ->)].
    + replace (2 * k + 1) with (1 + 2 * k) by lia. rewrite Z.odd_add_mul_2. reflexivity.
    + replace (2 * k) with (0 + 2 * k) by lia. rewrite Z.odd_add_mul_2. reflexivity.
  - subst z. unfold limit. rewrite I. reflexivity.
Qed.

Lemma gcall a g b ts e d : spells_std a g -> tk b = tLPAREN -> gexpr ts e -> tk d = tRPAREN ->
  gexpr (a :: b :: ts ++ [d]) (call_of g e).
Proof. intros. apply g_simple, g_term, g_factor, g_fun; assumption. Qed.

Lemma function_valued : forall lev a g b ts e d t T,
  spells_std a g -> tk b = tLPAREN -> gexpr ts e -> tk d = tRPAREN ->
  etype_of (fun_ctx g) e = Some t -> type_fun g t = Some T -> (forall x, In x (evars e) -> addressable lev x) ->
  exists ps,
    (forall c rest n, toks c = a :: b :: ts ++ d :: rest -> ended rest -> g_level c = lev -> (4 * length (toks c) + 4 <= n)%nat ->
       exists c', expression n xUnknown c = Done T c' /\ toks c' = rest /\ errs c' = errs c /\ out c' = out c ++ ps) /\
    forall env x z, evalue env (fun_ctx g) e = Some x -> fun_result g x z -> inr T z = true ->
      computes lev ps (2 * Z.of_nat (length ts) + 6) (evars e) env (words T z).
Proof.
  intros lev a g b ts e d t T A B G D Y F V.
  assert (Yc : etype_of xUnknown (call_of g e) = Some T).
  { cbn [etype_of stype ttype ftype call_of]. rewrite Y. cbn [bind]. rewrite F. reflexivity. }
  destruct (valued lev _ _ xUnknown T (gcall _ _ _ _ _ _ A B G D) Yc V) as (ps & P & C). exists ps. split.
  - intros c rest n Tk. apply P. rewrite Tk. cbn. rewrite <- app_assoc. reflexivity.
  - intros env x z X R I.
    destruct (C env z) as (_ & C').
    + change (bind (bind (etype_of (fun_ctx g) e) (fun t => type_fun g t)) (fun _ =>
        bind (bind (etype_of (fun_ctx g) e) (fun t => bind (evalue env (fun_ctx g) e) (fun x => value_fun g t x))) (fun x => Some x)) = Some z).
      rewrite Y, X. cbn [bind]. rewrite F. cbn [bind]. rewrite (fun_value g x z t T F R I). reflexivity.
    + replace (2 * Z.of_nat (length ts) + 6) with (2 * Z.of_nat (length (a :: b :: ts ++ [d]))); [exact C'|].
      cbn [length]. rewrite app_length. cbn [length]. lia.
Qed.

(** ** Cases *)

Definition fnt (f : Z) := mkTok tSTDFUNC 0 f nosym 1.
Definition callt (f : Z) (ts : list tok) : list tok := fnt f :: kt tLPAREN :: ts ++ [kt tRPAREN].

(** Sqr(Pred(x)) + Ord('A') *)
Definition x9 := mkVar xInteger 0 2.
Definition fn_tokens := callt txSQR (callt txPRED [vt x9]) ++ kt tPLUS :: callt txORD [ct 65].
Definition vx9 : expr := ESimple (STerm false (TFactor (FVar x9))).
Definition fn_expr : expr := ESimple (SBin (STerm false (TFactor (FFun FnSqr (call_of FnPred vx9)))) Plus
  (TFactor (FFun FnOrd (ESimple (tch 65))))).
Lemma gx9 : gexpr [vt x9] vx9.
Proof. apply g_simple, g_term, g_factor, g_var. repeat split; try reflexivity. cbn. intuition discriminate. Qed.
Lemma fn_grammar : gexpr fn_tokens fn_expr.
Proof.
  apply g_simple, g_add; [apply g_term, g_factor, g_fun; try reflexivity; [split; reflexivity|]|reflexivity|].
  - apply gcall; try reflexivity; [split; reflexivity|apply gx9].
  - apply g_factor, (g_fun (fnt txORD) FnOrd (kt tLPAREN) [ct 65]); try reflexivity; [split; reflexivity|apply g_simple, gtch].
Qed.
Lemma fn_typed : etype_of xUnknown fn_expr = Some xInteger /\ (forall x, In x (evars fn_expr) -> addressable 0 x) /\
  evalue (fun _ => 8) xUnknown fn_expr = Some 114.
Proof.
  split; [reflexivity|]. split; [|reflexivity]. intros x [<-|[]]. unfold addressable. cbn. lia.
Qed.

(** ** Counterexamples *)

Definition longs_left (s s' : st) (z : Z) : Prop :=
  sp s' = sp s + 4 /\ rd s' (sp s / 2 + 1) = Some (z mod 65536) /\ rd s' (sp s / 2 + 2) = Some (z / 65536 mod 65536).
Definition word_left (s s' : st) (z : Z) : Prop := sp s' = sp s + 2 /\ rd s' (sp s / 2 + 1) = Some (z mod 65536).

Ltac refute := eexists; exists vm0; eexists; split; [vm_compute; reflexivity|]; split; [reflexivity|];
  split; [run|]; split; [vm_compute; reflexivity|]; run.

(** Succ(100000) is 165536 *)
Lemma succ_long_refuted : gexpr (callt txSUCC [nt 100000]) (call_of FnSucc (ESimple (ten 100000))) /\
  exists c' s s', expression 50 xUnknown (start (callt txSUCC [nt 100000])) = Done xLongInteger c' /\ errs c' = [] /\
  room s 10 /\ exec_list (out c') s = Ok s' /\ longs_left s s' 165536.
Proof. split; [apply gcall; try reflexivity; [split; reflexivity|apply g_simple, gten]|]. refute. Qed.

(** Pred(100000) is 34464 *)
Lemma pred_long_refuted : gexpr (callt txPRED [nt 100000]) (call_of FnPred (ESimple (ten 100000))) /\
  exists c' s s', expression 50 xUnknown (start (callt txPRED [nt 100000])) = Done xLongInteger c' /\ errs c' = [] /\
  room s 10 /\ exec_list (out c') s = Ok s' /\ longs_left s s' 34464.
Proof. split; [apply gcall; try reflexivity; [split; reflexivity|apply g_simple, gten]|]. refute. Qed.

(** Odd(65536) and Odd(100001) leave two words: the low-order word of the
    argument and the parity of its high-order word *)
Lemma odd_long_refuted : gexpr (callt txODD [nt 65536]) (call_of FnOdd (ESimple (ten 65536))) /\
  exists c' s s', expression 50 xUnknown (start (callt txODD [nt 65536])) = Done xBoolean c' /\ errs c' = [] /\
  room s 10 /\ exec_list (out c') s = Ok s' /\ sp s' = sp s + 4 /\ rd s' (sp s' / 2) = Some 65535.
Proof. split; [apply gcall; try reflexivity; [split; reflexivity|apply g_simple, gten]|]. refute. Qed.

(** Ord(100000) is of type Integer and leaves two words *)
Lemma ord_long_refuted : gexpr (callt txORD [nt 100000]) (call_of FnOrd (ESimple (ten 100000))) /\
  exists c' s s', expression 50 xUnknown (start (callt txORD [nt 100000])) = Done xInteger c' /\ errs c' = [] /\
  room s 10 /\ exec_list (out c') s = Ok s' /\ longs_left s s' 100000.
Proof. split; [apply gcall; try reflexivity; [split; reflexivity|apply g_simple, gten]|]. refute. Qed.

(** Succ(false) is a word that is neither true nor false; NOT Succ(false) is
    not false *)
Lemma gtbo b : gsimple [bt b] (tbo b).
Proof. apply g_term, g_factor, g_bool; destruct b; reflexivity. Qed.
Lemma succ_boolean_refuted : gexpr (callt txSUCC [bt false]) (call_of FnSucc (ESimple (tbo false))) /\
  exists c' s s', expression 50 xBoolean (start (callt txSUCC [bt false])) = Done xBoolean c' /\ errs c' = [] /\
  room s 10 /\ exec_list (out c') s = Ok s' /\ word_left s s' 1 /\ inr xBoolean 1 = false.
Proof. split; [apply gcall; try reflexivity; [split; reflexivity|apply g_simple, gtbo]|]. refute. Qed.

(** Ord(true) is -1 *)
Lemma ord_boolean_refuted : gexpr (callt txORD [bt true]) (call_of FnOrd (ESimple (tbo true))) /\
  exists c' s s', expression 50 xInteger (start (callt txORD [bt true])) = Done xInteger c' /\ errs c' = [] /\
  room s 10 /\ exec_list (out c') s = Ok s' /\ word_left s s' (-1).
Proof. split; [apply gcall; try reflexivity; [split; reflexivity|apply g_simple, gtbo]|]. refute. Qed.

(** Abs of a ShortInteger or of a LongInteger is rejected *)
Lemma abs_refuted : forall t, In t [xShortInteger; xLongInteger] -> let x := mkVar t 0 8 in
  gexpr (callt txABS [vt x]) (call_of FnAbs (ESimple (STerm false (TFactor (FVar x))))) /\
  exists c', expression 50 xUnknown (start (callt txABS [vt x])) = Done t c' /\ errs c' = [eINVARG].
Proof.
  intros t [<-|[<-|[]]] x; (split; [apply gcall; try reflexivity; [split; reflexivity|]|eexists; split; vm_compute; reflexivity]).
  all: apply g_simple, g_term, g_factor, g_var; repeat split; try reflexivity; cbn; intuition discriminate.
Qed.

(** Chr(300) is 300 *)
Lemma chr_refuted : gexpr (callt txCHR [nt 300]) (call_of FnChr (ESimple (ten 300))) /\
  exists c' s s', expression 50 xChar (start (callt txCHR [nt 300])) = Done xChar c' /\ errs c' = [] /\
  room s 10 /\ exec_list (out c') s = Ok s' /\ word_left s s' 300 /\ inr xChar 300 = false.
Proof. split; [apply gcall; try reflexivity; [split; reflexivity|apply g_simple, gten]|]. refute. Qed.
