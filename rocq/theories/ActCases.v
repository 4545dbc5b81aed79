(** The statements about calls, and what contradicts them. *)

From Coq Require Import ZArith Bool List Lia ZifyBool.
From Verif Require Import Words State Opcodes EncodeModel Machine VmSpec OptSpec ExprModel ExprSpec ExprOps ExprLoad ExprCases
  StmtModel StmtSpec StmtRun StmtCases ArrModel ArrProofs ArrCases ActModel ActSpec ActProofs ActRun ActAccept.
From Verif Require DeclModel.
Import ListNotations.
Open Scope Z_scope.

(** ** The statements *)

Lemma procedure : forall lev p ps ts l,
  Forall2 described (pFormals p) ps -> glist lev ps ts l -> 0 <= pLevel p < 255 -> 0 <= pLabel p < 65536 -> slots ps <= 32768 ->
  exists code,
    (forall c name rest n, toks c = name :: ts ++ rest -> (ts = [] -> tk (hd eoftok rest) <> tLPAREN) -> g_level c = lev ->
       (4 * length (toks c) + 4 <= n)%nat ->
       exists c', proc_statement n p c = ADone c' /\ errorless c c' rest (code ++ call_op p :: release (slots ps))) /\
    calls lev p code (release (slots ps)) 0 ps l (2 * Z.of_nat (length ts)) (fun _ _ _ _ => True).
Proof.
  intros lev p ps ts l D G Lv Lb Sl. destruct (procedure_ok lev p ps ts l D G Lv Lb Sl) as (code & H & C).
  exists code. split; [|exact C]. intros c name rest n H1 H2 H3 H4. eexists. split; [apply (H c name rest n); assumption|apply after_errorless].
Qed.

Lemma function : forall lev p ps ts l t,
  Forall2 described (pFormals p) ps -> glist lev ps ts l -> 0 <= pLevel p < 255 -> 0 <= pLabel p < 65536 ->
  class_of t <> None -> pType p = kind_of t -> pSize p = size_of t -> slots (ByValue t :: ps) <= 32768 ->
  exists code,
    (forall c name rest n, toks c = name :: ts ++ rest -> (ts = [] -> tk (hd eoftok rest) <> tLPAREN) -> g_level c = lev ->
       (4 * length (toks c) + 4 <= n)%nat ->
       exists c', function_designator n p c = Done t c' /\
         errorless c c' rest (container t :: code ++ call_op p :: release (slots ps))) /\
    calls lev p (container t :: code) (release (slots ps)) (slot (ByValue t)) ps l (2 * Z.of_nat (length ts) + 2) (result_left p t ps).
Proof.
  intros lev p ps ts l t D G Lv Lb Cl Pt Sz Sl.
  assert (Sl' : slots ps <= 32768) by (rewrite slots_cons in Sl; pose proof (slot_words (ByValue t) 0); lia).
  destruct (function_ok lev p ps ts l D G Lv Lb Sl' t) as (code & H & C); [rewrite Pt; apply map_kind, Cl|exact Sz|exact Sl|].
  exists code. split; [|exact C]. intros c name rest n H1 H2 H3 H4. eexists. split; [apply (H c name rest n); assumption|apply after_errorless].
Qed.

Lemma reaches_one s f k : forall g h, reaches s f k g -> reaches s f k h -> g = h.
Proof.
  revert f. induction k as [|k IH]; intros f g h A B; inversion A; inversion B; subst; [reflexivity|].
  assert (g0 = g1) by (unfold slink in *; congruence). subst. eapply IH; eauto.
Qed.
Lemma word16_one a b z : word16 a z -> word16 b z -> a = b.
Proof. intros (A & i & Hi) (B & j & Hj). lia. Qed.
Lemma signed16_one w y z : signed16 w y -> signed16 w z -> y = z.
Proof. intros (A & i & Hi) (B & j & Hj). lia. Qed.
Lemma address_one lev s x a b : var_address lev s x a -> var_address lev s x b -> a = b.
Proof.
  unfold var_address. destruct (vlev x =? 0); [apply word16_one|].
  intros (g & y & R & Sy & W) (h & z & R' & Sz & W'). rewrite (reaches_one _ _ _ _ _ R R') in W. rewrite (signed16_one _ _ _ Sy Sz) in W.
  exact (word16_one _ _ _ W W').
Qed.

Lemma reference : forall lev s s2 x a z, addressed lev s x a -> located lev s x z ->
  cf s2 = cf s -> (forall i, i <= sp s / 2 -> rd s2 i = rd s i) -> contains s2 (vty x) a z.
Proof.
  intros lev s s2 x a z A L C R. set (s' := with_mem s (mem s2)).
  assert (Rd : forall i, rd s' i = rd s2 i) by (intros i; unfold rd, in_word, s'; cbn [cf mem with_mem]; rewrite C; reflexivity).
  assert (Rb : forall i, rdb s' i = rdb s2 i) by (intros i; unfold rdb, in_byte, s'; cbn [cf mem with_mem]; rewrite C; reflexivity).
  assert (Sr : same_regs s s') by (repeat split).
  assert (R' : forall i, i <= sp s / 2 -> rd s' i = rd s i) by (intros i Hi; rewrite Rd; apply R, Hi).
  destruct (L s' Sr R') as (b & B1 & _ & B2). rewrite (address_one _ _ _ _ _ (A s' Sr R') B1).
  unfold contains, element in *. destruct (vty x); rewrite ?Rd in B2; try exact B2.
  - destruct B2 as (v & (w & W1 & W2) & V). exists v. rewrite Rb in W1. eauto.
  - destruct B2 as (v & W & V). exists v. rewrite Rb in W. eauto.
  - destruct B2 as (v & W & V). exists v. rewrite Rb in W. eauto.
Qed.

Lemma sizes : forall f t, class_of t <> None -> fType f = Some (kind_of t) -> parameter_size f = slot (ByValue t).
Proof. intros f t C F. unfold parameter_size. rewrite F. destruct t; try reflexivity; exfalso; apply C; reflexivity. Qed.

(** ** A case: procedure p(a : Integer; b : LongInteger; VAR c : Integer), called
    as p(x + 2, 100000, x) by a procedure at level 1 *)

Definition ap_parms := [ByValue xInteger; ByValue xLongInteger; ByVar xInteger].
Definition ap_formals := [mkFormal sINT (Some sINT); mkFormal sLONGINT (Some sLONGINT); mkFormal sVAR_PARM (Some sINT)].
Definition ap_proc := mkProc 0 77 ap_formals 0 0.
Definition ap_tokens := kt tLPAREN :: (tadd x1 2 ++ kt tCOMMA :: [nt 100000] ++ kt tCOMMA :: [vt x1]) ++ [kt tRPAREN].
Definition ap_args := [AExpr (eadd x1 2); AExpr (eint 100000); AVar x1].
(** The frame at 200 is that of level 1, its static link leads to 180, the frame of
    level 0; x is word 107. *)
Definition vmc := mkSt (fun i => if i =? 107 then 31 else if i =? 104 then 1 else if i =? 100 then 180 else if 126 <=? i then 0x4242 else 0)
  (mkCfg 4096 200 2000 0 1000) 250 0 200 0 1 0.

Lemma x1_address s : fp s = 200 -> var_address 1 s x1 214.
Proof.
  intros F. cbn. unfold frame_ea. rewrite F. exists 200, 4. split; [apply (reaches_0 s 200)|].
  split; (split; [vm_compute; intuition congruence|exists 0; reflexivity]).
Qed.
Lemma x1_located : located 1 vmc x1 31.
Proof.
  intros s' (_ & _ & F & _) R. exists 214. split; [apply x1_address, F|]. split; [vm_compute; congruence|].
  cbn. rewrite R by (vm_compute; congruence). reflexivity.
Qed.
Lemma x1_addressed : addressed 1 vmc x1 214.
Proof. intros s' (_ & _ & F & _) _. apply x1_address, F. Qed.
Lemma x1_addressable : addressable 1 x1.
Proof. repeat split; vm_compute; congruence. Qed.

Lemma ap_list : glist 1 ap_parms ap_tokens ap_args.
Proof.
  apply gl_args; [reflexivity| |reflexivity].
  apply gs_more; [|reflexivity|apply gs_more; [|reflexivity|apply gs_one]].
  - apply ga_value; [apply gadd; vark|reflexivity|]. intros x [<-|[]]. apply x1_addressable.
  - apply ga_value; [apply gint|reflexivity|]. intros x [].
  - apply ga_var; [apply spelt; vark|reflexivity|apply x1_addressable].
Qed.

Definition ap_code := Eval vm_compute in
  match proc_statement 100 ap_proc (start_at 1 (kt 0x46 :: ap_tokens)) with ADone c => firstn 6 (out c) | _ => [] end.
Definition state_of (o : outcome) := match o with Ok s => s | _ => vmc end.

Lemma call_case :
  Forall2 described (pFormals ap_proc) ap_parms /\ glist 1 ap_parms ap_tokens ap_args /\ slots ap_parms = 8 /\
  parm_vars 1 ap_parms = [mkVar xInteger 1 (-8); mkVar xLongInteger 1 (-6); mkVar xWord 1 (-2)] /\
  all_passed (fun _ => 31) (fun _ => 214) ap_parms ap_args [33; 100000; 214] /\
  room vmc (2 * Z.of_nat (length ap_tokens) + 5) /\ regular vmc /\
  Forall (provided 1 vmc (fun _ => 31) (fun _ => 214)) ap_args /\
  exists s1 s2, proc_statement 100 ap_proc (start_at 1 (kt 0x46 :: ap_tokens)) =
      ADone (mkComp [] (ap_code ++ call_op ap_proc :: release 8) [] 0 1 0 0 0) /\
    exec_list ap_code vmc = Ok s1 /\ exec_insn s1 (call_op ap_proc) = Ok s2.
Proof.
  split; [repeat (constructor; [cbn; split; [discriminate|auto]|]); constructor|].
  split; [exact ap_list|]. split; [reflexivity|]. split; [reflexivity|].
  split; [repeat (constructor; [vm_compute; auto|]); constructor|].
  split; [repeat split; vm_compute; congruence|]. split; [repeat split; vm_compute; congruence|].
  split.
  { constructor; [intros x [<-|[]]; exact x1_located|]. constructor; [intros x []|]. constructor; [exact x1_addressed|constructor]. }
  exists (state_of (exec_list ap_code vmc)), (state_of (exec_list (ap_code ++ [call_op ap_proc]) vmc)).
  split; [vm_compute; reflexivity|]. split; vm_compute; reflexivity.
Qed.

(** A function f(a : Integer) : LongInteger *)
Definition af_proc := mkProc 0 78 [mkFormal sINT (Some sINT)] sLONGINT 4.
Definition af_tokens := kt tLPAREN :: tadd x1 2 ++ [kt tRPAREN].
Lemma function_case :
  Forall2 described (pFormals af_proc) [ByValue xInteger] /\ glist 1 [ByValue xInteger] af_tokens [AExpr (eadd x1 2)] /\
  pType af_proc = kind_of xLongInteger /\ pSize af_proc = size_of xLongInteger /\ slots [ByValue xLongInteger; ByValue xInteger] = 6 /\
  result_var 1 xLongInteger [ByValue xInteger] = mkVar xLongInteger 1 (-6) /\
  all_passed (fun _ => 31) (fun _ => 214) [ByValue xInteger] [AExpr (eadd x1 2)] [33] /\
  room vmc (2 * Z.of_nat (length af_tokens) + 2 + 5) /\ regular vmc /\
  exists code, function_designator 100 af_proc (start_at 1 (kt 0x4d :: af_tokens)) =
    Done xLongInteger (mkComp [] (container xLongInteger :: code ++ call_op af_proc :: release 2) [] 0 1 0 0 0).
Proof.
  split; [constructor; [cbn; split; [discriminate|auto]|constructor]|].
  split.
  { apply gl_args; [reflexivity|apply gs_one|reflexivity]. apply ga_value; [apply gadd; vark|reflexivity|]. intros x [<-|[]]. apply x1_addressable. }
  split; [reflexivity|]. split; [reflexivity|]. split; [reflexivity|]. split; [reflexivity|].
  split; [constructor; [vm_compute; auto|constructor]|].
  split; [repeat split; vm_compute; congruence|]. split; [repeat split; vm_compute; congruence|].
  exists (firstn 3 ap_code). vm_compute. reflexivity.
Qed.

(** ** What contradicts *)

(** A function with a result of type Char: f := 'A' sets the low-order byte of the
    word, the other one is what the stack contained. *)
Definition ac_proc := mkProc 0 79 [] sCHAR 1.
Lemma byte_result_refuted : exists c' body s1 s2 s3 s4,
  pType ac_proc = kind_of xChar /\ pSize ac_proc = size_of xChar /\
  function_designator 20 ac_proc (start_at 1 [kt 0x4d]) = Done xChar c' /\ errs c' = [] /\
  out c' = [container xChar; call_op ac_proc] /\
  assignment 20 oSTSB xChar (mkSym 1 (voff (result_var 1 xChar [])) 1 0) (start_at 1 [kt tASSIGN; ct 65]) = SDone body /\ errs body = [] /\
  room vmc 10 /\ regular vmc /\
  exec_list [container xChar] vmc = Ok s1 /\ exec_insn s1 (call_op ac_proc) = Ok s2 /\
  exec_list (out body) s2 = Ok s3 /\ may_return s2 s3 /\ contains s3 xChar (sp vmc + 2) 65 /\
  exec_list [mkOp oRET 0 0] s3 = Ok s4 /\ sp s4 = sp vmc + 2 /\ rd s4 (sp vmc / 2 + 1) = Some 0x4241.
Proof.
  do 6 eexists. split; [reflexivity|]. split; [reflexivity|]. split; [vm_compute; reflexivity|]. split; [reflexivity|]. split; [vm_compute; reflexivity|].
  split; [vm_compute; reflexivity|]. split; [reflexivity|]. split; [run|]. split; [run|].
  split; [vm_compute; reflexivity|]. split; [vm_compute; reflexivity|]. split; [vm_compute; reflexivity|].
  split.
  { split; [reflexivity|]. split; [vm_compute; reflexivity|]. intros i Hi.
    vm_compute in Hi. assert (X : i = 127 \/ i = 128 \/ i = 129 \/ i = 130 \/ i = 131) by (destruct Hi as (A & B); change (127 <= i) in A; change (i < 132) in B; lia).
    decompose [or] X; subst i; vm_compute; reflexivity. }
  split; [exists 65; split; vm_compute; reflexivity|]. split; [vm_compute; reflexivity|]. split; vm_compute; reflexivity.
Qed.

(** A parameter of a range of characters takes no character. *)
Lemma subrange_refuted : exists size c', 
  actual 20 (mkFormal sSUBRANGE (Some sSUBRANGE)) (start_at 1 [ct 97]) = LDone size c' /\ errs c' = [eEXPRTYPE].
Proof. eexists _, _. split; [vm_compute; reflexivity|reflexivity]. Qed.

(** The size in the debug records is that of the variable, what is passed is its
    address. *)
Lemma var_size_refuted : exists f t c size c', described f (ByVar t) /\ fType f = Some (kind_of t) /\
  actual 20 f c = LDone size c' /\ errs c' = errs c /\ size = slot (ByVar t) /\ parameter_size f = 4 /\ size = 2.
Proof.
  exists (mkFormal sVAR_PARM (Some sLONGINT)), xLongInteger, (start_at 1 [vt (mkVar xLongInteger 1 8)]). eexists _, _.
  split; [split; [discriminate|split; [reflexivity|left; reflexivity]]|]. split; [reflexivity|]. split; [vm_compute; reflexivity|].
  repeat split.
Qed.

(** An argument with operands of different types is accepted: p(3 * true) *)
Lemma argument_refuted : exists ts e c', gexpr ts e /\ (forall ctx, etype_of ctx e = None) /\
  actual_list 50 [mkFormal sINT (Some sINT)] (start (kt tLPAREN :: ts ++ [kt tRPAREN])) = LDone 2 c' /\ errs c' = [] /\ toks c' = [].
Proof.
  destruct product_refuted as (ts & e & c & G & N & _ & H & E).
  exists ([nt 3] ++ [kt tMUL; bt true]), (ESimple (STerm false (TBin (TFactor (FInt 3)) Times (FBool true)))). eexists.
  split; [apply g_simple, g_term, g_mul; [apply g_factor, g_int; reflexivity|reflexivity|apply g_bool; reflexivity]|].
  split; [destruct ctx; reflexivity|]. split; [vm_compute; reflexivity|]. split; reflexivity.
Qed.

(** Cases for what is accepted *)
Lemma accepted_case : Forall2 described ap_formals ap_parms /\ Forall wf_tok ap_tokens /\
  exists c', actual_list 100 ap_formals (start_at 1 ap_tokens) = LDone 8 c' /\ errs c' = [] /\ toks c' = [].
Proof.
  split; [repeat (constructor; [cbn; split; [discriminate|auto]|]); constructor|]. split.
  - repeat constructor; cbn; try discriminate; intros k N K; destruct k; try discriminate K; try reflexivity; exfalso; apply N; cbn; auto.
  - eexists. split; [vm_compute; reflexivity|]. split; reflexivity.
Qed.
Lemma missing_case : exists size c',
  actual_list 100 ap_formals (start_at 1 (kt tLPAREN :: tadd x1 2 ++ [kt tRPAREN])) = LDone size c' /\ errs c' = [eCOMMA; eINVFACTOR; eEXPRTYPE; eCOMMA; ePTRADR; eINVVARPARM].
Proof. eexists _, _. split; [vm_compute; reflexivity|]. reflexivity. Qed.
