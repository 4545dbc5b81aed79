(** Properties of the standard functions. *)

From Coq Require Import ZArith Bool List Lia.
From Verif Require Import State Opcodes EncodeModel Machine VmSpec ExprModel ExprSpec ExprCases FunCases.
Import ListNotations.
Open Scope Z_scope.

(** ** C90 The code of a standard function computes its result *)

(** Missing: long numbers and truth values as arguments, and results that are not
    numbers of the type; see the refutations.  The functions of real numbers,
    strings, sets, files and directories are not modelled. *)
Theorem C90_function_partial : forall lev a g b ts e d t T,
  spells_std a g -> tk b = tLPAREN -> gexpr ts e -> tk d = tRPAREN ->
  etype_of (fun_ctx g) e = Some t -> type_fun g t = Some T -> (forall x, In x (evars e) -> addressable lev x) ->
  exists ps,
    (forall c rest n, toks c = a :: b :: ts ++ d :: rest -> ended rest -> g_level c = lev -> (4 * length (toks c) + 4 <= n)%nat ->
       exists c', expression n xUnknown c = Done T c' /\ toks c' = rest /\ errs c' = errs c /\ out c' = out c ++ ps) /\
    forall env x z, evalue env (fun_ctx g) e = Some x -> fun_result g x z -> inr T z = true ->
      computes lev ps (2 * Z.of_nat (length ts) + 6) (evars e) env (words T z).
Proof. exact function_valued. Qed.
Print Assumptions C90_function_partial.

(** Sqr(Pred(x)) + Ord('A'), and Odd(x) *)
Example C90_case : gexpr fn_tokens fn_expr /\ etype_of xUnknown fn_expr = Some xInteger /\
  (forall x, In x (evars fn_expr) -> addressable 0 x) /\ evalue (fun _ => 8) xUnknown fn_expr = Some 114 /\
  gexpr [vt x9] vx9 /\ etype_of (fun_ctx FnOdd) vx9 = Some xInteger /\ type_fun FnOdd xInteger = Some xBoolean /\
  evalue (fun _ => 7) (fun_ctx FnOdd) vx9 = Some 7 /\ fun_result FnOdd 7 (-1) /\ inr xBoolean (-1) = true.
Proof.
  split; [exact fn_grammar|]. destruct fn_typed as (A & B & C). repeat (split; [assumption|]).
  split; [exact gx9|]. repeat (split; [reflexivity|]). split; [|reflexivity]. left. split; [reflexivity|]. exists 3. reflexivity.
Qed.

Theorem C90_succ_long_refuted : gexpr (callt txSUCC [nt 100000]) (call_of FnSucc (ESimple (ten 100000))) /\
  exists c' s s', expression 50 xUnknown (start (callt txSUCC [nt 100000])) = Done xLongInteger c' /\ errs c' = [] /\
  room s 10 /\ exec_list (out c') s = Ok s' /\ longs_left s s' 165536.
Proof. exact succ_long_refuted. Qed.
Print Assumptions C90_succ_long_refuted.

Theorem C90_pred_long_refuted : gexpr (callt txPRED [nt 100000]) (call_of FnPred (ESimple (ten 100000))) /\
  exists c' s s', expression 50 xUnknown (start (callt txPRED [nt 100000])) = Done xLongInteger c' /\ errs c' = [] /\
  room s 10 /\ exec_list (out c') s = Ok s' /\ longs_left s s' 34464.
Proof. exact pred_long_refuted. Qed.
Print Assumptions C90_pred_long_refuted.

Theorem C90_odd_long_refuted : gexpr (callt txODD [nt 65536]) (call_of FnOdd (ESimple (ten 65536))) /\
  exists c' s s', expression 50 xUnknown (start (callt txODD [nt 65536])) = Done xBoolean c' /\ errs c' = [] /\
  room s 10 /\ exec_list (out c') s = Ok s' /\ sp s' = sp s + 4 /\ rd s' (sp s' / 2) = Some 65535.
Proof. exact odd_long_refuted. Qed.
Print Assumptions C90_odd_long_refuted.

Theorem C90_ord_long_refuted : gexpr (callt txORD [nt 100000]) (call_of FnOrd (ESimple (ten 100000))) /\
  exists c' s s', expression 50 xUnknown (start (callt txORD [nt 100000])) = Done xInteger c' /\ errs c' = [] /\
  room s 10 /\ exec_list (out c') s = Ok s' /\ longs_left s s' 100000.
Proof. exact ord_long_refuted. Qed.
Print Assumptions C90_ord_long_refuted.

Theorem C90_succ_boolean_refuted : gexpr (callt txSUCC [bt false]) (call_of FnSucc (ESimple (tbo false))) /\
  exists c' s s', expression 50 xBoolean (start (callt txSUCC [bt false])) = Done xBoolean c' /\ errs c' = [] /\
  room s 10 /\ exec_list (out c') s = Ok s' /\ word_left s s' 1 /\ inr xBoolean 1 = false.
Proof. exact succ_boolean_refuted. Qed.
Print Assumptions C90_succ_boolean_refuted.

Theorem C90_ord_boolean_refuted : gexpr (callt txORD [bt true]) (call_of FnOrd (ESimple (tbo true))) /\
  exists c' s s', expression 50 xInteger (start (callt txORD [bt true])) = Done xInteger c' /\ errs c' = [] /\
  room s 10 /\ exec_list (out c') s = Ok s' /\ word_left s s' (-1).
Proof. exact ord_boolean_refuted. Qed.
Print Assumptions C90_ord_boolean_refuted.

Theorem C90_abs_refuted : forall t, In t [xShortInteger; xLongInteger] -> let x := mkVar t 0 8 in
  gexpr (callt txABS [vt x]) (call_of FnAbs (ESimple (STerm false (TFactor (FVar x))))) /\
  exists c', expression 50 xUnknown (start (callt txABS [vt x])) = Done t c' /\ errs c' = [eINVARG].
Proof. exact abs_refuted. Qed.
Print Assumptions C90_abs_refuted.

Theorem C90_chr_refuted : gexpr (callt txCHR [nt 300]) (call_of FnChr (ESimple (ten 300))) /\
  exists c' s s', expression 50 xChar (start (callt txCHR [nt 300])) = Done xChar c' /\ errs c' = [] /\
  room s 10 /\ exec_list (out c') s = Ok s' /\ word_left s s' 300 /\ inr xChar 300 = false.
Proof. exact chr_refuted. Qed.
Print Assumptions C90_chr_refuted.
