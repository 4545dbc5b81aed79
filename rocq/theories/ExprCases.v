(** The statements about expressions, and what contradicts them. *)

From Coq Require Import ZArith Bool List Lia ZifyBool.
From Verif Require Import Words State Opcodes EncodeModel Machine VmSpec ExprModel ExprSpec ExprOps ExprLoad ExprProofs ExprMain ExprParse ExprAccept ExprTotal.
Import ListNotations.
Open Scope Z_scope.

(** ** C64 *)

Lemma accepted : forall n ctx c t c', expression n ctx c = Done t c' -> errs c' = errs c -> Forall wf_tok (toks c) ->
  exists ts e, toks c = ts ++ toks c' /\ gexpr ts e.
Proof.
  intros n ctx c t c' H E W. destruct (proj1 (all_accept n) ctx c t c' H E W) as (ts & e & A & B & _). eauto.
Qed.
Lemma accepted_type : forall n ctx c t c', expression n ctx c = Done t c' -> errs c' = errs c -> Forall wf_tok (toks c) ->
  exists ts e, toks c = ts ++ toks c' /\ gexpr ts e /\ elax ctx e = Some t.
Proof.
  intros n ctx c t c' H E W. destruct (proj1 (all_accept n) ctx c t c' H E W) as (ts & e & A & B & C & _). eauto.
Qed.
Lemma stops : forall n ctx c t c', expression n ctx c = Done t c' ->
  (forall o, ~ spells_mul (hd eoftok (toks c')) o) /\ (forall o, ~ spells_add (hd eoftok (toks c')) o).
Proof.
  intros n ctx c t c' H. apply expression_stop in H. destruct H as (M & A). unfold token, cur in M, A. split.
  - intros o S. destruct o; cbn in S; try destruct S as [S|S]; rewrite S in M; discriminate M.
  - intros o S. destruct o; cbn in S; try destruct S as [S|S]; rewrite S in A; discriminate A.
Qed.

(** ** C65 *)

Lemma valued : forall lev ts e ctx T, gexpr ts e -> etype_of ctx e = Some T ->
  (forall x, In x (evars e) -> addressable lev x) ->
  exists ps,
    (forall c rest n, toks c = ts ++ rest -> ended rest -> g_level c = lev -> (4 * length (toks c) + 4 <= n)%nat ->
       exists c', expression n ctx c = Done T c' /\ toks c' = rest /\ errs c' = errs c /\ out c' = out c ++ ps) /\
    forall env z, evalue env ctx e = Some z ->
      inr T z = true /\ computes lev ps (2 * Z.of_nat (length ts)) (evars e) env (words T z).
Proof.
  intros lev ts e ctx T G Y R. destruct (grammar_sound lev) as (_ & _ & _ & H).
  destruct (H ts e G ctx T Y R) as (ps & N & P & C). exists ps. split; [|exact C].
  intros c rest n Tk En L F. exists (after c rest ps). split; [|repeat split].
  rewrite <- (P c rest (max N n) Tk En L ltac:(lia)). symmetry. apply expression_fuel; [lia|].
  apply expression_ends. exact F.
Qed.

(** Tokens and states for the cases *)
Definition kt (k : Z) := mkTok k 0 0 nosym 1.
Definition nt (n : Z) := mkTok tINT_CONST n 0 nosym 1.
Definition ct (n : Z) := mkTok tCHAR_CONST n 0 nosym 1.
Definition bt (b : bool) := mkTok tBOOLEAN_CONST (if b then 4294967295 else 0) 0 nosym 1.
Definition vt (x : var) := mkTok (kind_of (vty x)) 0 0 (mkSym (vlev x) (voff x) (size_of (vty x)) 0) 1.
Definition castt (t : etype) := mkTok sTYPE 0 0 (mkSym 0 0 0 (kind_of t)) 1.
Definition start_at (lev : Z) (ts : list tok) := mkComp ts [] [] 0 lev 0 0 0.
Definition start := start_at 0.
Definition vm0 := mkSt (fun _ => 0) (mkCfg 4096 200 2000 0 1000) 198 0 0 0 0 0.

Definition ten (n : Z) : simple_ := STerm false (TFactor (FInt n)).
Lemma gten n : gsimple [nt n] (ten n).
Proof. apply g_term, g_factor, g_int; reflexivity. Qed.

Ltac run := repeat split; vm_compute; congruence.

(** LongWord: 2147483647 + 1 is a number of the type, but the addition of the
    machine is that of signed numbers *)
Lemma longword_refuted : exists ts e c' s,
  gexpr ts e /\ e = ESimple (SBin (ten 2147483647) Plus (TFactor (FInt 1))) /\ ended [] /\
  expression 50 xLongWord (start ts) = Done xLongWord c' /\ errs c' = [] /\ toks c' = [] /\
  inr xLongWord (2147483647 + 1) = true /\ room s 10 /\ exec_list (out c') s = UB.
Proof.
  exists ([nt 2147483647] ++ [kt tPLUS; nt 1]). eexists. eexists. exists vm0.
  split; [apply (g_simple _ (SBin (ten 2147483647) Plus (TFactor (FInt 1)))), g_add; [apply gten|reflexivity|apply g_factor, g_int; reflexivity]|].
  split; [reflexivity|]. split; [intros H; vm_compute in H; intuition discriminate|]. split; [vm_compute; reflexivity|]. run.
Qed.

(** 100000 < 100001 is false *)
Lemma long_order_refuted : exists ts e c' s s',
  gexpr ts e /\ e = ERel (ten 100000) Less (ten 100001) /\
  expression 50 xBoolean (start ts) = Done xBoolean c' /\ errs c' = [] /\ toks c' = [] /\
  room s 10 /\ exec_list (out c') s = Ok s' /\ sp s' = sp s + 2 /\ rd s' (sp s' / 2) = Some 0.
Proof.
  exists ([nt 100000] ++ [kt tLT; nt 100001]). eexists. eexists. exists vm0. eexists.
  split; [apply (g_rel _ (ten 100000) _ Less _ (ten 100001)); [apply gten|reflexivity|apply gten]|].
  split; [reflexivity|]. split; [vm_compute; reflexivity|]. split; [reflexivity|]. split; [reflexivity|].
  split; [run|]. split; [vm_compute; reflexivity|]. run.
Qed.

(** 'a' < 'b' is rejected where a truth value is expected; elsewhere it is a
    character, and both operands remain on the stack *)
Definition tch (n : Z) : simple_ := STerm false (TFactor (FChar n)).
Lemma gtch n : gsimple [ct n] (tch n).
Proof. apply g_term, g_factor, g_char; reflexivity. Qed.
Lemma char_order_refuted : exists ts e c1 c2 s s',
  gexpr ts e /\ e = ERel (tch 97) Less (tch 98) /\
  expression 50 xBoolean (start ts) = Done xChar c1 /\ errs c1 = [eEXPRTYPE] /\
  expression 50 xUnknown (start ts) = Done xChar c2 /\ errs c2 = [] /\
  room s 10 /\ exec_list (out c2) s = Ok s' /\ sp s' = sp s + 4.
Proof.
  exists ([ct 97] ++ [kt tLT; ct 98]). eexists. eexists. eexists. exists vm0. eexists.
  split; [apply (g_rel _ (tch 97) _ Less _ (tch 98)); [apply gtch|reflexivity|apply gtch]|].
  split; [reflexivity|]. split; [vm_compute; reflexivity|]. split; [reflexivity|]. split; [vm_compute; reflexivity|].
  split; [reflexivity|]. split; [run|]. split; [vm_compute; reflexivity|]. run.
Qed.

(** w shl 1 and w = 1 are rejected for a variable of type Word: an integer
    constant is of type Integer *)
Definition w0 := mkVar xWord 0 8.
Lemma gw0 : gterm [vt w0] (TFactor (FVar w0)).
Proof. apply g_factor, g_var. repeat split; try reflexivity. cbn. intuition discriminate. Qed.
Lemma word_shift_refuted : exists ts e t c',
  gexpr ts e /\ e = ESimple (STerm false (TBin (TFactor (FVar w0)) Shl (FInt 1))) /\
  expression 50 xWord (start ts) = Done t c' /\ errs c' = [eFACTORTYPE].
Proof.
  exists ([vt w0] ++ [kt tSHL; nt 1]). eexists. eexists. eexists.
  split; [apply g_simple, (g_term _ (TBin (TFactor (FVar w0)) Shl (FInt 1))), g_mul; [apply gw0|reflexivity|apply g_int; reflexivity]|].
  split; [reflexivity|]. split; vm_compute; reflexivity.
Qed.
Lemma word_equal_refuted : exists ts e t c',
  gexpr ts e /\ e = ERel (STerm false (TFactor (FVar w0))) Equal (ten 1) /\
  expression 50 xBoolean (start ts) = Done t c' /\ errs c' = [eEXPRTYPE].
Proof.
  exists ([vt w0] ++ [kt tEQ; nt 1]). eexists. eexists. eexists.
  split; [apply (g_rel _ (STerm false (TFactor (FVar w0))) _ Equal _ (ten 1)); [apply g_term, gw0|reflexivity|apply gten]|].
  split; [reflexivity|]. split; vm_compute; reflexivity.
Qed.

(** LongInteger(40000) is -25536 *)
Lemma cast_refuted : exists ts e c' s s',
  gexpr ts e /\ e = ESimple (STerm false (TFactor (FCast xLongInteger (ESimple (ten 40000))))) /\
  expression 50 xLongInteger (start ts) = Done xLongInteger c' /\ errs c' = [] /\
  room s 10 /\ exec_list (out c') s = Ok s' /\ sp s' = sp s + 4 /\
  rd s' (sp s / 2 + 1) = Some ((-25536) mod 65536) /\ rd s' (sp s / 2 + 2) = Some ((-25536) / 65536 mod 65536).
Proof.
  exists (castt xLongInteger :: kt tLPAREN :: [nt 40000] ++ [kt tRPAREN]). eexists. eexists. exists vm0. eexists.
  split; [apply (g_simple _ (STerm false (TFactor (FCast xLongInteger (ESimple (ten 40000)))))), g_term, g_factor, g_cast;
    try reflexivity; [cbn; intuition discriminate|apply g_simple, gten]|].
  split; [reflexivity|]. split; [vm_compute; reflexivity|]. split; [reflexivity|]. split; [run|].
  split; [vm_compute; reflexivity|]. run.
Qed.

(** Integer(true) is -1, LongInteger(true) is 65535 *)
Definition tbo (b : bool) : simple_ := STerm false (TFactor (FBool b)).
Lemma gtbo b : gsimple [bt b] (tbo b).
Proof. apply g_term, g_factor, g_bool; reflexivity. Qed.
Lemma cast_boolean_refuted : exists ts e c' s s',
  gexpr ts e /\ e = ESimple (STerm false (TFactor (FCast xLongInteger (ESimple (tbo true))))) /\
  expression 50 xLongInteger (start ts) = Done xLongInteger c' /\ errs c' = [] /\
  room s 10 /\ exec_list (out c') s = Ok s' /\ sp s' = sp s + 4 /\
  rd s' (sp s / 2 + 1) = Some 65535 /\ rd s' (sp s / 2 + 2) = Some 0.
Proof.
  exists (castt xLongInteger :: kt tLPAREN :: [bt true] ++ [kt tRPAREN]). eexists. eexists. exists vm0. eexists.
  split; [apply (g_simple _ (STerm false (TFactor (FCast xLongInteger (ESimple (tbo true)))))), g_term, g_factor, g_cast;
    try reflexivity; [cbn; intuition discriminate|apply g_simple, gtbo]|].
  split; [reflexivity|]. split; [vm_compute; reflexivity|]. split; [reflexivity|]. split; [run|].
  split; [vm_compute; reflexivity|]. run.
Qed.

(** ** C66 *)

(** 3 * true: the operand types of * are never compared *)
Lemma product_refuted : exists ts e c',
  gexpr ts e /\ (forall ctx, etype_of ctx e = None) /\ Forall wf_tok ts /\
  expression 50 xInteger (start ts) = Done xInteger c' /\ errs c' = [].
Proof.
  exists ([nt 3] ++ [kt tMUL; bt true]), (ESimple (STerm false (TBin (TFactor (FInt 3)) Times (FBool true)))). eexists.
  split; [apply g_simple, g_term, g_mul; [apply g_factor, g_int; reflexivity|reflexivity|apply g_bool; reflexivity]|].
  split; [destruct ctx; reflexivity|]. split; [|split; [vm_compute; reflexivity|reflexivity]].
  repeat constructor; cbn; try discriminate; try (left; reflexivity); intros k N K; destruct k; try discriminate K; exfalso; apply N; cbn; auto.
Qed.

(** 3 * 100000: MUL takes one word of the long constant, and a word remains *)
Lemma product_long_refuted : exists ts e c' s s',
  gexpr ts e /\ (forall ctx, is32 ctx = false -> etype_of ctx e = None) /\
  expression 50 xInteger (start ts) = Done xInteger c' /\ errs c' = [] /\
  room s 10 /\ exec_list (out c') s = Ok s' /\ sp s' = sp s + 4.
Proof.
  exists ([nt 3] ++ [kt tMUL; nt 100000]), (ESimple (STerm false (TBin (TFactor (FInt 3)) Times (FInt 100000)))). eexists. exists vm0. eexists.
  split; [apply g_simple, g_term, g_mul; [apply g_factor, g_int; reflexivity|reflexivity|apply g_int; reflexivity]|].
  split; [destruct ctx; intros H; try discriminate H; reflexivity|]. split; [vm_compute; reflexivity|]. split; [reflexivity|].
  split; [run|]. split; [vm_compute; reflexivity|]. run.
Qed.

(** A case that meets the hypotheses: (x + 2) * 3 < 100 with a local variable *)
Definition x1 := mkVar xInteger 1 4.
Definition case_tokens := ((kt tLPAREN :: ([vt x1] ++ [kt tPLUS; nt 2]) ++ [kt tRPAREN]) ++ [kt tMUL; nt 3]) ++ [kt tLT; nt 100].
Definition case_expr :=
  ERel (STerm false (TBin (TFactor (FParen (ESimple (SBin (STerm false (TFactor (FVar x1))) Plus (TFactor (FInt 2)))))) Times (FInt 3)))
       Less (ten 100).
Lemma case_grammar : gexpr case_tokens case_expr.
Proof.
  apply g_rel; [|reflexivity|apply gten]. apply g_term, g_mul; [|reflexivity|apply g_int; reflexivity].
  apply g_factor, g_paren; [reflexivity| |reflexivity]. apply g_simple, g_add; [|reflexivity|apply g_factor, g_int; reflexivity].
  apply g_term, g_factor, g_var. repeat split; try reflexivity. cbn. intuition discriminate.
Qed.
Lemma case_typed : etype_of xBoolean case_expr = Some xBoolean /\ (forall x, In x (evars case_expr) -> addressable 1 x) /\
  evalue (fun _ => 31) xBoolean case_expr = Some (-1) /\ evalue (fun _ => 32) xBoolean case_expr = Some 0.
Proof.
  split; [reflexivity|]. split; [|split; reflexivity].
  intros x [<-|[]]. repeat split; vm_compute; congruence.
Qed.
(** and a state in which the variable has the value 31 *)
Definition vm1 := mkSt (fun i => if i =? 107 then 31 else 0) (mkCfg 4096 200 2000 0 1000) 214 0 200 0 0 0.
Lemma case_state : room vm1 22 /\ forall x, In x (evars case_expr) -> located 1 vm1 x 31.
Proof.
  split; [run|]. intros x [<-|[]]. intros s' R S. exists 214. split; [|split; [vm_compute; congruence|]].
  - cbn. destruct R as (_ & _ & F & _). exists 200, 4. rewrite F. split; [constructor|].
    split; (split; [lia|exists 0; reflexivity]).
  - unfold contains, x1, vty. rewrite S by (vm_compute; congruence). vm_compute. reflexivity.
Qed.
