(** Properties of the expression compiler. *)

From Coq Require Import ZArith Bool List Lia.
From Verif Require Import State Opcodes EncodeModel Machine VmSpec ExprModel ExprSpec ExprCases ExprTotal.
Import ListNotations.
Open Scope Z_scope.

(** ** C64 What is accepted is an expression *)

Theorem C64_accepted : forall n ctx c t c',
  expression n ctx c = Done t c' -> errs c' = errs c -> Forall wf_tok (toks c) ->
  exists ts e, toks c = ts ++ toks c' /\ gexpr ts e.
Proof. exact accepted. Qed.
Print Assumptions C64_accepted.

(** The expression is not cut off in front of an operator. *)
Theorem C64_stops : forall n ctx c t c',
  expression n ctx c = Done t c' ->
  (forall o, ~ spells_mul (hd eoftok (toks c')) o) /\ (forall o, ~ spells_add (hd eoftok (toks c')) o).
Proof. exact stops. Qed.
Print Assumptions C64_stops.

Example C64_case : let c := start_at 1 (case_tokens ++ [kt 59]) in
  exists c', expression 60 xBoolean c = Done xBoolean c' /\ errs c' = errs c /\ toks c' = [kt 59] /\ Forall wf_tok (toks c).
Proof.
  eexists. split; [vm_compute; reflexivity|]. split; [reflexivity|]. split; [reflexivity|].
  repeat constructor; cbn; try discriminate; intros k N K; destruct k; try discriminate K; try reflexivity; exfalso; apply N; cbn; auto.
Qed.

(** ** C65 The code of an expression computes its value *)

(** Missing: what the specification does not count as well-typed, or gives no
    value, because the code is wrong there; see the refutations. *)
Theorem C65_value_partial : forall lev ts e ctx T,
  gexpr ts e -> etype_of ctx e = Some T -> (forall x, In x (evars e) -> addressable lev x) ->
  exists ps,
    (forall c rest n, toks c = ts ++ rest -> ended rest -> g_level c = lev -> (4 * length (toks c) + 4 <= n)%nat ->
       exists c', expression n ctx c = Done T c' /\ toks c' = rest /\ errs c' = errs c /\ out c' = out c ++ ps) /\
    forall env z, evalue env ctx e = Some z ->
      inr T z = true /\ computes lev ps (2 * Z.of_nat (length ts)) (evars e) env (words T z).
Proof. exact valued. Qed.
Print Assumptions C65_value_partial.

Example C65_case : gexpr case_tokens case_expr /\
  (etype_of xBoolean case_expr = Some xBoolean /\ (forall x, In x (evars case_expr) -> addressable 1 x) /\
   evalue (fun _ => 31) xBoolean case_expr = Some (-1) /\ evalue (fun _ => 32) xBoolean case_expr = Some 0) /\
  (room vm1 22 /\ forall x, In x (evars case_expr) -> located 1 vm1 x 31) /\ ended [kt 59].
Proof.
  split; [exact case_grammar|]. split; [exact case_typed|]. split; [exact case_state|].
  intros H. cbn in H. intuition discriminate.
Qed.

Theorem C65_longword_refuted : exists ts e c' s,
  gexpr ts e /\ e = ESimple (SBin (ten 2147483647) Plus (TFactor (FInt 1))) /\ ended [] /\
  expression 50 xLongWord (start ts) = Done xLongWord c' /\ errs c' = [] /\ toks c' = [] /\
  inr xLongWord (2147483647 + 1) = true /\ room s 10 /\ exec_list (out c') s = UB.
Proof. exact longword_refuted. Qed.
Print Assumptions C65_longword_refuted.

Theorem C65_long_order_refuted : exists ts e c' s s',
  gexpr ts e /\ e = ERel (ten 100000) Less (ten 100001) /\
  expression 50 xBoolean (start ts) = Done xBoolean c' /\ errs c' = [] /\ toks c' = [] /\
  room s 10 /\ exec_list (out c') s = Ok s' /\ sp s' = sp s + 2 /\ rd s' (sp s' / 2) = Some 0.
Proof. exact long_order_refuted. Qed.
Print Assumptions C65_long_order_refuted.

Theorem C65_char_order_refuted : exists ts e c1 c2 s s',
  gexpr ts e /\ e = ERel (tch 97) Less (tch 98) /\
  expression 50 xBoolean (start ts) = Done xChar c1 /\ errs c1 = [eEXPRTYPE] /\
  expression 50 xUnknown (start ts) = Done xChar c2 /\ errs c2 = [] /\
  room s 10 /\ exec_list (out c2) s = Ok s' /\ sp s' = sp s + 4.
Proof. exact char_order_refuted. Qed.
Print Assumptions C65_char_order_refuted.

Theorem C65_word_shift_refuted : exists ts e t c',
  gexpr ts e /\ e = ESimple (STerm false (TBin (TFactor (FVar w0)) Shl (FInt 1))) /\
  expression 50 xWord (start ts) = Done t c' /\ errs c' = [eFACTORTYPE].
Proof. exact word_shift_refuted. Qed.
Print Assumptions C65_word_shift_refuted.

Theorem C65_word_equal_refuted : exists ts e t c',
  gexpr ts e /\ e = ERel (STerm false (TFactor (FVar w0))) Equal (ten 1) /\
  expression 50 xBoolean (start ts) = Done t c' /\ errs c' = [eEXPRTYPE].
Proof. exact word_equal_refuted. Qed.
Print Assumptions C65_word_equal_refuted.

Theorem C65_cast_refuted : exists ts e c' s s',
  gexpr ts e /\ e = ESimple (STerm false (TFactor (FCast xLongInteger (ESimple (ten 40000))))) /\
  expression 50 xLongInteger (start ts) = Done xLongInteger c' /\ errs c' = [] /\
  room s 10 /\ exec_list (out c') s = Ok s' /\ sp s' = sp s + 4 /\
  rd s' (sp s / 2 + 1) = Some ((-25536) mod 65536) /\ rd s' (sp s / 2 + 2) = Some ((-25536) / 65536 mod 65536).
Proof. exact cast_refuted. Qed.
Print Assumptions C65_cast_refuted.

Theorem C65_cast_boolean_refuted : exists ts e c' s s',
  gexpr ts e /\ e = ESimple (STerm false (TFactor (FCast xLongInteger (ESimple (tbo true))))) /\
  expression 50 xLongInteger (start ts) = Done xLongInteger c' /\ errs c' = [] /\
  room s 10 /\ exec_list (out c') s = Ok s' /\ sp s' = sp s + 4 /\
  rd s' (sp s / 2 + 1) = Some 65535 /\ rd s' (sp s / 2 + 2) = Some 0.
Proof. exact cast_boolean_refuted. Qed.
Print Assumptions C65_cast_boolean_refuted.

(** ** C66 Ill-typed expressions are rejected *)

(** Missing: the types of the factors of *, DIV, MOD and AND are not compared,
    and the order of characters and truth values is accepted. *)
Theorem C66_typed_partial : forall n ctx c t c',
  expression n ctx c = Done t c' -> errs c' = errs c -> Forall wf_tok (toks c) ->
  exists ts e, toks c = ts ++ toks c' /\ gexpr ts e /\ elax ctx e = Some t.
Proof. exact accepted_type. Qed.
Print Assumptions C66_typed_partial.

Example C66_case : elax xUnknown case_expr = Some xBoolean /\
  elax xUnknown (ESimple (SBin (ten 1) Plus (TFactor (FBool true)))) = None.
Proof. split; reflexivity. Qed.

Theorem C66_product_refuted : exists ts e c',
  gexpr ts e /\ (forall ctx, etype_of ctx e = None) /\ Forall wf_tok ts /\
  expression 50 xInteger (start ts) = Done xInteger c' /\ errs c' = [].
Proof. exact product_refuted. Qed.
Print Assumptions C66_product_refuted.

Theorem C66_product_long_refuted : exists ts e c' s s',
  gexpr ts e /\ (forall ctx, is32 ctx = false -> etype_of ctx e = None) /\
  expression 50 xInteger (start ts) = Done xInteger c' /\ errs c' = [] /\
  room s 10 /\ exec_list (out c') s = Ok s' /\ sp s' = sp s + 4.
Proof. exact product_long_refuted. Qed.
Print Assumptions C66_product_long_refuted.

(** ** C67 The expression compiler ends *)

Theorem C67_ends : forall n ctx c,
  (4 * length (toks c) + 4 <= n)%nat -> expression n ctx c <> NoFuel.
Proof. exact expression_ends. Qed.
Print Assumptions C67_ends.

Theorem C67_same : forall n m ctx c,
  (n <= m)%nat -> expression n ctx c <> NoFuel -> expression m ctx c = expression n ctx c.
Proof. exact expression_fuel. Qed.
Print Assumptions C67_same.

Example C67_case : (4 * length (toks (start_at 1 case_tokens)) + 4 <= 60)%nat /\ expression 60 xBoolean (start_at 1 case_tokens) <> NoFuel /\
  expression 8 xBoolean (start_at 1 case_tokens) = NoFuel.
Proof. split; [apply Nat.leb_le; reflexivity|]. split; [vm_compute; discriminate|vm_compute; reflexivity]. Qed.
