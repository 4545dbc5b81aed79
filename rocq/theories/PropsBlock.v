(** C84: procedures and functions do what their bodies mean. *)

From Coq Require Import ZArith Bool List.
From Verif Require Import Words State Opcodes EncodeModel Machine VmSpec OptSpec ExprModel ExprSpec ExprOps ExprLoad ExprCases
  StmtModel StmtSpec StmtRun StmtCases ArrModel ArrProofs ArrCases ActModel ActSpec ActProofs ActRun ActCases BlockModel BlockSpec BlockMain BlockCases.
From Verif Require Import StmtSpec.
Import ListNotations.
Open Scope Z_scope.

(** A call statement and the procedure that it calls are compiled; executed, they do
    what the statements of the procedure mean.  Missing: calls in the statements,
    statements with parameters passed by address, initial values other than those of
    files, words and bytes, expressions and statements as in C65, C68. *)
Theorem C84_procedure_partial : forall lev p ps ts l,
  Forall2 described (pFormals p) ps -> glist lev ps ts l -> 0 <= pLevel p < 255 -> 0 <= pLabel p < 65536 -> slots ps <= 32768 ->
  exists call,
    (forall c name rest n, toks c = name :: ts ++ rest -> (ts = [] -> tk (hd eoftok rest) <> tLPAREN) -> g_level c = lev ->
       (4 * length (toks c) + 4 <= n)%nat ->
       exists c', proc_statement n p c = ADone c' /\ errorless c c' rest call) /\
    compiled_body lev p ps l None (2 * Z.of_nat (length ts) + 7) call.
Proof. exact procedure_called. Qed.
Print Assumptions C84_procedure_partial.

(** procedure p(a : Integer); var n : Integer = 3;
    begin while n < 6 do begin x := x + a; n := n + 1 end end *)
Example C84_text_case : block_text 2 ([x1] ++ (result_vars 2 None [ByValue xInteger] ++ value_vars 2 [ByValue xInteger]) ++ [bp_n]) 2 bp_inits [(bp_n, 3)] bp_tokens
    (SOne (SWhile (erel bp_n Less 6) (SBlock (SMore (SAssign x1 (eplus x1 bp_a)) (SOne (incr bp_n 1)))))) /\
  locals 2 2 [bp_n] /\ bp_a = parm_var 2 (ByValue xInteger) [].
Proof. exact (conj bp_text (conj bp_locals eq_refl)). Qed.

Example C84_state_case : surrounded vmc 1 200 /\ placed 1 [x1] (fun _ => 214) (fun _ => False) 107 (with_fp vmc 200) /\
  holding [x1] (fun _ => 214) vmc (fun _ => 31) /\ all_passed (fun _ => 31) (fun _ => 214) [ByValue xInteger] [AExpr (eadd x1 2)] [33] /\
  Forall (provided 1 vmc (fun _ => 31) (fun _ => 214)) [AExpr (eadd x1 2)].
Proof. exact (conj vmc_surrounded (conj vmc_placed (conj vmc_holding (conj bp_passed bp_provided)))). Qed.

(** p(x + 2) with x = 31: then x is 31 + 3 * 33. *)
Example C84_procedure_case : exists call body c1 c2 s',
  proc_statement 100 bp_proc (start_at 1 bp_call) = ADone c1 /\ errs c1 = [] /\ out c1 = call /\
  routine 200 80 81 2 None bp_inits (start_at 2 (bp_tokens ++ [semi])) = SDone c2 /\ errs c2 = [] /\ out c2 = body /\
  cruns (call ++ body) (0%nat, [], vmc) (length call, [], s') /\ sp s' = sp vmc /\ same_regs vmc s' /\ rd s' 107 = Some 130.
Proof. exact procedure_case. Qed.

(** The same for the calls of functions *)
Theorem C84_function_partial : forall lev p ps ts l t,
  Forall2 described (pFormals p) ps -> glist lev ps ts l -> 0 <= pLevel p < 255 -> 0 <= pLabel p < 65536 ->
  class_of t <> None -> pType p = kind_of t -> pSize p = size_of t -> slots (ByValue t :: ps) <= 32768 ->
  exists call,
    (forall c name rest n, toks c = name :: ts ++ rest -> (ts = [] -> tk (hd eoftok rest) <> tLPAREN) -> g_level c = lev ->
       (4 * length (toks c) + 4 <= n)%nat ->
       exists c', function_designator n p c = Done t c' /\ errorless c c' rest call) /\
    compiled_body lev p ps l (Some t) (2 * Z.of_nat (length ts) + 9) call.
Proof. exact function_called'. Qed.
Print Assumptions C84_function_partial.

(** function f(a : Integer) : Integer; begin f := x + a end, called as f(x + 2) with
    x = 31 *)
Example C84_function_case : exists call body c1 c2 s',
  function_designator 100 bf_proc (start_at 1 bp_call) = Done xInteger c1 /\ errs c1 = [] /\ out c1 = call /\
  routine 200 82 83 0 None [] (start_at 2 (bf_tokens ++ [semi])) = SDone c2 /\ errs c2 = [] /\ out c2 = body /\
  cruns (call ++ body) (0%nat, [], vmc) (length call, [], s') /\ sp s' = sp vmc + 2 /\ same_regs vmc s' /\ rd s' 126 = Some 64.
Proof. exact function_case. Qed.

(** var l : LongInteger = 5 *)
Theorem C84_long_initial_value_refuted : exists v x z junk c' s', sLevel v = vlev x /\ vOffset v = voff x /\ vty x = xLongInteger /\
  storable xLongInteger z = true /\
  initialization [add_var_initializer v (kind_of (vty x)) z junk] (start_at 1 []) = SDone c' /\ errs c' = [] /\
  room vmc 10 /\ exec_list (out c') vmc = Ok s' /\ sp s' = sp vmc /\ contains s' (vty x) 218 (z + 65536 * 7) /\ ~ contains s' (vty x) 218 z.
Proof. exact long_initial_value_refuted. Qed.
Print Assumptions C84_long_initial_value_refuted.

(** A file in a record: what is executed when its number, 3, has been pushed *)
Theorem C84_file_field_refuted : exists v offset c' s1 s', 0 < offset /\
  initialization [IField v offset] (start_at 1 []) = SDone c' /\ errs c' = [] /\
  hd_error (out c') = Some (mkOp oSYSIO 0 xALLOCFILE) /\ exec_insn vmc (mkOp oPUSH 0 3) = Ok s1 /\
  exec_list (tl (out c')) s1 = Ok s' /\ sp s' = sp vmc + 2 /\ rd s' 109 = Some (218 + offset) /\ rd s' (109 + offset / 2) = Some 0.
Proof. exact file_field_refuted. Qed.
Print Assumptions C84_file_field_refuted.
