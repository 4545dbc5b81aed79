(** * Calls of procedures and functions (C82, C83) *)

From Coq Require Import ZArith Bool List.
From Verif Require Import Words State Opcodes EncodeModel Machine VmSpec ExprModel ExprSpec ExprCases
  StmtModel StmtSpec StmtCases ArrModel ArrCases ActModel ActSpec ActAccept ActDecl ActCases.
From Verif Require DeclModel DeclSpec DeclCases.
Import ListNotations.
Open Scope Z_scope.

(** ** C82: the callee finds its arguments, the caller its stack *)

(** Missing: parameters that are real numbers, strings, enumerations, sets, arrays,
    records and files; calls in arguments. *)
Theorem C82_procedure_partial : forall lev p ps ts l,
  Forall2 described (pFormals p) ps -> glist lev ps ts l -> 0 <= pLevel p < 255 -> 0 <= pLabel p < 65536 -> slots ps <= 32768 ->
  exists code,
    (forall c name rest n, toks c = name :: ts ++ rest -> (ts = [] -> tk (hd eoftok rest) <> tLPAREN) -> g_level c = lev ->
       (4 * length (toks c) + 4 <= n)%nat ->
       exists c', proc_statement n p c = ADone c' /\ errorless c c' rest (code ++ call_op p :: release (slots ps))) /\
    calls lev p code (release (slots ps)) 0 ps l (2 * Z.of_nat (length ts)) (fun _ _ _ _ => True).
Proof. exact procedure. Qed.
Print Assumptions C82_procedure_partial.

Example C82_procedure_case :
  Forall2 described (pFormals ap_proc) ap_parms /\ glist 1 ap_parms ap_tokens ap_args /\ slots ap_parms = 8 /\
  parm_vars 1 ap_parms = [mkVar xInteger 1 (-8); mkVar xLongInteger 1 (-6); mkVar xWord 1 (-2)] /\
  all_passed (fun _ => 31) (fun _ => 214) ap_parms ap_args [33; 100000; 214] /\
  room vmc (2 * Z.of_nat (length ap_tokens) + 5) /\ regular vmc /\
  Forall (provided 1 vmc (fun _ => 31) (fun _ => 214)) ap_args /\
  exists s1 s2, proc_statement 100 ap_proc (start_at 1 (kt 0x46 :: ap_tokens)) =
      ADone (mkComp [] (ap_code ++ call_op ap_proc :: release 8) [] 0 1 0 0 0) /\
    exec_list ap_code vmc = Ok s1 /\ exec_insn s1 (call_op ap_proc) = Ok s2.
Proof. exact call_case. Qed.

(** Missing: as before, and the high-order byte of a result of one byte. *)
Theorem C82_function_partial : forall lev p ps ts l t,
  Forall2 described (pFormals p) ps -> glist lev ps ts l -> 0 <= pLevel p < 255 -> 0 <= pLabel p < 65536 ->
  class_of t <> None -> pType p = kind_of t -> pSize p = size_of t -> slots (ByValue t :: ps) <= 32768 ->
  exists code,
    (forall c name rest n, toks c = name :: ts ++ rest -> (ts = [] -> tk (hd eoftok rest) <> tLPAREN) -> g_level c = lev ->
       (4 * length (toks c) + 4 <= n)%nat ->
       exists c', function_designator n p c = Done t c' /\
         errorless c c' rest (container t :: code ++ call_op p :: release (slots ps))) /\
    calls lev p (container t :: code) (release (slots ps)) (slot (ByValue t)) ps l (2 * Z.of_nat (length ts) + 2) (result_left p t ps).
Proof. exact function. Qed.
Print Assumptions C82_function_partial.

Example C82_function_case :
  Forall2 described (pFormals af_proc) [ByValue xInteger] /\ glist 1 [ByValue xInteger] af_tokens [AExpr (eadd x1 2)] /\
  pType af_proc = kind_of xLongInteger /\ pSize af_proc = size_of xLongInteger /\ slots [ByValue xLongInteger; ByValue xInteger] = 6 /\
  result_var 1 xLongInteger [ByValue xInteger] = mkVar xLongInteger 1 (-6) /\
  all_passed (fun _ => 31) (fun _ => 214) [ByValue xInteger] [AExpr (eadd x1 2)] [33] /\
  room vmc (2 * Z.of_nat (length af_tokens) + 2 + 5) /\ regular vmc /\
  exists code, function_designator 100 af_proc (start_at 1 (kt 0x4d :: af_tokens)) =
    Done xLongInteger (mkComp [] (container xLongInteger :: code ++ call_op af_proc :: release 2) [] 0 1 0 0 0).
Proof. exact function_case. Qed.

(** The address that a VAR parameter receives leads the callee to the variable. *)
Theorem C82_reference : forall lev s s2 x a z, addressed lev s x a -> located lev s x z ->
  cf s2 = cf s -> (forall i, i <= sp s / 2 -> rd s2 i = rd s i) -> contains s2 (vty x) a z.
Proof. exact reference. Qed.
Print Assumptions C82_reference.

Example C82_reference_case : addressed 1 vmc x1 214 /\ located 1 vmc x1 31.
Proof. split; [exact x1_addressed|exact x1_located]. Qed.

(** The places of the parameters are those that the declaration assigns. *)
Theorem C82_offsets : forall n pp d off d', DeclModel.formal_parameters n pp d = DeclModel.Done off d' ->
  length (DeclModel.syms d) = S pp ->
  exists m, DeclModel.syms d' = DeclModel.syms d ++ m /\
    forall k ps, Forall2 (fun s p => DeclSpec.words_of s = slot p) m ps -> slots ps <= 32768 ->
      off = - slots ps /\ map DeclSpec.start m = map voff (parm_vars k ps).
Proof. exact declared_offsets. Qed.
Print Assumptions C82_offsets.

Example C82_offsets_case :
  DeclModel.formal_parameters 50 5 (DeclCases.at_start DeclCases.ex_proc DeclCases.ex_parms) = DeclModel.Done (-8) DeclCases.ex_parms_end /\
  length (DeclModel.syms (DeclCases.at_start DeclCases.ex_proc DeclCases.ex_parms)) = 6%nat /\
  exists m, DeclModel.syms DeclCases.ex_parms_end = DeclModel.syms (DeclCases.at_start DeclCases.ex_proc DeclCases.ex_parms) ++ m /\
    Forall2 (fun s p => DeclSpec.words_of s = slot p) m [ByValue xInteger; ByVar xInteger; ByVar xInteger; ByValue xChar].
Proof. exact declared_offsets_case. Qed.

(** 'A' as the result of a function is 16961 on a stack that contained 66 there. *)
Theorem C82_byte_result_refuted : exists c' body s1 s2 s3 s4,
  pType ac_proc = kind_of xChar /\ pSize ac_proc = size_of xChar /\
  function_designator 20 ac_proc (start_at 1 [kt 0x4d]) = Done xChar c' /\ errs c' = [] /\
  out c' = [container xChar; call_op ac_proc] /\
  assignment 20 oSTSB xChar (mkSym 1 (voff (result_var 1 xChar [])) 1 0) (start_at 1 [kt tASSIGN; ct 65]) = SDone body /\ errs body = [] /\
  room vmc 10 /\ regular vmc /\
  exec_list [container xChar] vmc = Ok s1 /\ exec_insn s1 (call_op ac_proc) = Ok s2 /\
  exec_list (out body) s2 = Ok s3 /\ may_return s2 s3 /\ contains s3 xChar (sp vmc + 2) 65 /\
  exec_list [mkOp oRET 0 0] s3 = Ok s4 /\ sp s4 = sp vmc + 2 /\ rd s4 (sp vmc / 2 + 1) = Some 0x4241.
Proof. exact byte_result_refuted. Qed.
Print Assumptions C82_byte_result_refuted.

(** ** C83: arguments are checked against the parameters *)

(** A list read without an error consists of as many arguments as there are
    parameters, each of the type of its parameter in the lax sense; the bytes
    counted are those of the parameters.  Missing: the strict sense. *)
Theorem C83_accepted_partial : forall n fs ps c size c', Forall2 described fs ps ->
  actual_list n fs c = LDone size c' -> errs c' = errs c -> Forall wf_tok (toks c) ->
  size = slots ps /\ exists ts l, toks c = ts ++ toks c' /\ llist ps ts l.
Proof. exact list_accepted. Qed.
Print Assumptions C83_accepted_partial.

Example C83_accepted_case : Forall2 described ap_formals ap_parms /\ Forall wf_tok ap_tokens /\
  exists c', actual_list 100 ap_formals (start_at 1 ap_tokens) = LDone 8 c' /\ errs c' = [] /\ toks c' = [].
Proof. exact accepted_case. Qed.

Theorem C83_count : forall ps ts l, llist ps ts l -> length l = length ps.
Proof. exact args_length. Qed.
Print Assumptions C83_count.

(** With arguments missing there are errors. *)
Example C83_missing_case : exists size c',
  actual_list 100 ap_formals (start_at 1 (kt tLPAREN :: tadd x1 2 ++ [kt tRPAREN])) = LDone size c' /\
  errs c' = [eCOMMA; eINVFACTOR; eEXPRTYPE; eCOMMA; ePTRADR; eINVVARPARM].
Proof. exact missing_case. Qed.

(** Reading any list of arguments comes to an end. *)
Theorem C83_ends : forall n fs c, (4 * length (toks c) + 4 <= n)%nat -> actual_list n fs c <> LNoFuel.
Proof. exact list_ends. Qed.
Print Assumptions C83_ends.

(** p(3 * true) is accepted. *)
Theorem C83_strict_refuted : exists ts e c', gexpr ts e /\ (forall ctx, etype_of ctx e = None) /\
  actual_list 50 [mkFormal sINT (Some sINT)] (start (kt tLPAREN :: ts ++ [kt tRPAREN])) = LDone 2 c' /\ errs c' = [] /\ toks c' = [].
Proof. exact argument_refuted. Qed.
Print Assumptions C83_strict_refuted.

(** A parameter of a range of characters takes no character. *)
Theorem C83_subrange_refuted : exists size c',
  actual 20 (mkFormal sSUBRANGE (Some sSUBRANGE)) (start_at 1 [ct 97]) = LDone size c' /\ errs c' = [eEXPRTYPE].
Proof. exact subrange_refuted. Qed.
Print Assumptions C83_subrange_refuted.

(** The sizes in the debug records are those of the arguments, for parameters
    passed by value. *)
Theorem C83_sizes_partial : forall f t, class_of t <> None -> fType f = Some (kind_of t) -> parameter_size f = slot (ByValue t).
Proof. exact sizes. Qed.
Print Assumptions C83_sizes_partial.

Example C83_sizes_case : class_of xLongInteger <> None /\ fType (mkFormal sLONGINT (Some sLONGINT)) = Some (kind_of xLongInteger) /\
  slot (ByValue xLongInteger) = 4.
Proof. split; [discriminate|]. split; reflexivity. Qed.

Theorem C83_var_size_refuted : exists f t c size c', described f (ByVar t) /\ fType f = Some (kind_of t) /\
  actual 20 f c = LDone size c' /\ errs c' = errs c /\ size = slot (ByVar t) /\ parameter_size f = 4 /\ size = 2.
Proof. exact var_size_refuted. Qed.
Print Assumptions C83_var_size_refuted.
