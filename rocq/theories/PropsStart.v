(** C85, C86: the start of the p-machine, and main programs. *)

From Coq Require Import ZArith Bool List.
From Verif Require Import Words State Opcodes EncodeModel Machine VmSpec HeapModel OptSpec ExprModel ExprSpec ExprOps ExprLoad ExprCases
  StmtModel StmtSpec StmtRun StmtCases ArrModel ArrCases ActModel ActSpec ActCases BlockModel BlockSpec BlockCases
  StartModel StartSpec StartProofs StartMain StartCases.
From Verif Require Import StmtSpec.
Import ListNotations.
Open Scope Z_scope.

(** Whatever the memory contains: the regions follow each other, the frame of the
    main program has level 0, the registers are regular.  Missing: sizes that are not
    [startable], see below. *)
Theorem C85_start_partial : forall a junk, startable a ->
  exists s, initialize a junk = HV s /\ at_start a s /\ regular s /\ static_chain s (fp s) 0.
Proof. exact started_machine. Qed.
Print Assumptions C85_start_partial.

(** The read-only data are found at the addresses relative to rop.  Missing: an odd
    size of the string stack. *)
Theorem C85_rodata_partial : forall a junk s l, startable a -> a_str a mod 2 = 0 -> a_rodata a = Some l -> initialize a junk = HV s ->
  forall k b, nth_error l k = Some b -> rdb s (c_rop (cf s) + Z.of_nat k) = Some b.
Proof. exact rodata_ok. Qed.
Print Assumptions C85_rodata_partial.

Example C85_case : startable (mkAttr 256 5 1001 506 (Some [72; 101; 108; 108; 111]) 3).
Proof. exact at_case_ok. Qed.

(** If that size is odd, they are always one byte below. *)
Theorem C85_rodata_odd : forall a junk s l, startable a -> a_str a mod 2 = 1 -> a_rodata a = Some l -> initialize a junk = HV s ->
  forall k b, nth_error l k = Some b -> rdb s (c_rop (cf s) + Z.of_nat k - 1) = Some b.
Proof. exact rodata_odd. Qed.
Print Assumptions C85_rodata_odd.

Example C85_odd_case : startable (mkAttr 7 2 100 0 (Some [72; 101]) 0).
Proof. exact at_odd_ok. Qed.

Theorem C85_rodata_refuted : exists a junk s l, startable a /\ a_rodata a = Some l /\ initialize a junk = HV s /\
  exists k b, nth_error l k = Some b /\ rdb s (c_rop (cf s) + Z.of_nat k) <> Some b.
Proof. exact odd_refuted. Qed.
Print Assumptions C85_rodata_refuted.

(** Sizes that together exceed 16 bits: the frame header is written outside of the
    memory that has been allocated. *)
Theorem C85_overflow_refuted : exists a, (forall junk, initialize a junk = HU) /\ 0 <= a_str a <= 65535 /\ 0 <= a_ro a <= 65535 /\
  0 <= a_stk a <= 65535 /\ 0 <= a_hp a <= 65535 /\ a_rodata a = None.
Proof. exact sum_refuted. Qed.
Print Assumptions C85_overflow_refuted.

(** The main block of a program is compiled without an error; from the start of the
    machine, the code comes to the instruction END, and the global variables have the
    values that the statements give them.  Missing: calls in the statements;
    statements, expressions and initial values as in C65, C68, C84. *)
Theorem C86_program_partial : forall xs dstack inits ini ts ss, block_text 0 xs dstack inits ini ts ss -> locals 0 dstack xs ->
  forall c b rest label inner, toks c = ts ++ b :: rest -> tk b = tPERIOD -> g_level c = 0 -> g_adjust c = 0 ->
  0 <= g_label c -> g_label c + 2 * Z.of_nat (length ts) <= 65535 -> 0 <= label <= 65535 ->
  exists c' main,
    (forall n, (4 * length (toks c) + 2 <= n)%nat -> program_block n label dstack inner inits c = SDone c') /\
    errs c' = errs c /\
    out c' = out c ++ match inner with Some code => code | None => [] end ++ main ++ [mkOp oEND 0 0] /\
    hd_error main = Some (mkOp oLABEL 0 label) /\
    forall prog i, stands prog i (main ++ [mkOp oEND 0 0]) ->
    forall a junk, startable a -> 10 + whole dstack + 4 * Z.of_nat (length ts) + 4 < a_stk a ->
    forall Q : env -> Prop, (forall r r1, started ini r r1 -> exists r', means_seq ss r1 Normal r' /\ Q r') ->
    exists s s' r', initialize a junk = HV s /\ runs prog (i, s) ((i + length main)%nat, s') /\
      nth_error prog (i + length main) = Some (mkOp oEND 0 0) /\ Q r' /\
      same_regs s s' /\ sp s' = sp s /\ holding xs (fun x => stack_at a + 10 + voff x) s' r'.
Proof. exact program_ok. Qed.
Print Assumptions C86_program_partial.

(** var n : Integer = 3; x : Integer = 0;
    begin while n < 6 do begin x := x + n; n := n + 1 end end. *)
Example C86_text_case : block_text 0 [mkVar xWord 0 0; mkVar xWord 0 2; sp_n; sp_x] 8 sp_inits [(mkVar xWord 0 0, 0); (mkVar xWord 0 2, 1); (sp_n, 3); (sp_x, 0)] sp_tokens
    (SOne (SWhile (erel sp_n Less 6) (SBlock (SMore (SAssign sp_x (eplus sp_x sp_n)) (SOne (incr sp_n 1)))))) /\
  locals 0 8 [mkVar xWord 0 0; mkVar xWord 0 2; sp_n; sp_x].
Proof. exact (conj sp_text sp_locals). Qed.

(** At the end, x is 12. *)
Example C86_case : exists c code s s', program_block 200 9 8 None sp_inits (start_at 0 (sp_tokens ++ [kt tPERIOD])) = SDone c /\ errs c = [] /\
  out c = code ++ [mkOp oEND 0 0] /\
  initialize at_case (fun _ => 77) = HV s /\ runs (out c) (0%nat, s) (length code, s') /\
  nth_error (out c) (length code) = Some (mkOp oEND 0 0) /\ rd s' 139 = Some 12.
Proof. exact program_case. Qed.
