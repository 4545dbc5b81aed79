(** C88, C89: the resolved code on the p-machine; from the text of a program to the end
    of its execution. *)

From Coq Require Import ZArith Bool List.
From Verif Require Import Words State Opcodes EncodeModel Machine VmSpec HeapModel OptSpec ExprModel ExprSpec ExprCases StmtModel StmtSpec StmtCases
  ArrModel ArrCases ActModel ActSpec BlockModel BlockSpec StartModel StartSpec RecModel RecSpec RecCode RecCases RealRun RealMain RealCases.
From Verif Require FinalModel FinalSpec.
From Verif Require Import StmtSpec.
Import ListNotations.
Open Scope Z_scope.

(** Execution of the list of instructions, with positions, symbolic labels and a list of
    the places to return to, is execution of the bytes that the label resolution makes of
    it, with addresses and return addresses in the frames: [address_of ops i] is the
    number of bytes of the instructions before position [i].  Missing: unsigned branches,
    which are not resolved (C41). *)
Theorem C88_machine_partial : forall n ops ft entry syms rels f maxpc,
  FinalSpec.program_text ops -> FinalSpec.labels_once ops -> FinalSpec.code_size (FinalSpec.instructions ops) < 65536 ->
  (forall p, In p ops -> ~ FinalSpec.unsigned_branch (op p)) -> (length ops < n)%nat ->
  FinalModel.finalize n (write_program ops) ft entry syms rels = FinalModel.FDone f -> Z.of_nat (length (FinalModel.f_prog f)) <= maxpc ->
  forall i ks s j ks' s', cruns ops (i, ks, s) (j, ks', s') ->
  exists k, forall m, run (k + m) (FinalModel.f_prog f) maxpc (with_pc s (address_of ops i)) = run m (FinalModel.f_prog f) maxpc (with_pc s' (address_of ops j)).
Proof. exact machine_runs. Qed.
Print Assumptions C88_machine_partial.

(** A program with procedures that call each other and themselves: the compiler comes to
    its end without an error; whatever else the output of the compiler contains, when its
    labels are resolved and the machine is started with the result, it exits after a
    finite number of instructions, the global variables have the values that the
    statements give them, and the stack is as at the beginning.  Missing: as in C87; that
    the output of the compiler has instructions with operands in range and no label twice
    is assumed; the optimizer is not applied. *)
Theorem C89_program_partial : forall procs decls, (forall q d, nth_error decls q = Some d -> declared procs decls d) ->
  forall xs dstack inits ini ts ss, pblock_text procs decls 0 xs dstack inits ini ts ss -> locals 0 dstack xs ->
  forall c b rest label inner, toks c = ts ++ b :: rest -> tk b = tPERIOD -> g_level c = 0 -> g_adjust c = 0 ->
  0 <= g_label c -> g_label c + 2 * Z.of_nat (length ts) <= 65535 -> 0 <= label <= 65535 ->
  exists c' main N,
    (forall n, (N <= n)%nat -> pprogram procs n label dstack inner inits c = SDone c') /\
    errs c' = errs c /\
    out c' = out c ++ match inner with Some code => code | None => [] end ++ main ++ [mkOp oEND 0 0] /\
    forall ops i, stands ops i (main ++ [mkOp oEND 0 0]) ->
    (forall q d, nth_error decls q = Some d -> exists code j, code_of procs d code /\ stands ops j code) ->
    FinalSpec.program_text ops -> FinalSpec.labels_once ops -> FinalSpec.code_size (FinalSpec.instructions ops) < 65536 ->
    (forall p, In p ops -> ~ FinalSpec.unsigned_branch (op p)) ->
    forall nf syms rels f, (length ops < nf)%nat ->
    FinalModel.finalize nf (write_program ops) FinalModel.FHT_PROGRAM label syms rels = FinalModel.FDone f ->
    forall D n, (forall q d, nth_error decls q = Some d -> d_need d <= D) -> 0 <= D ->
    forall a junk maxpc, startable a -> a_entry a = FinalModel.f_entry f -> Z.of_nat (length (FinalModel.f_prog f)) <= maxpc ->
    10 + whole dstack + 4 * Z.of_nat (length ts) + 4 + 2 * Z.of_nat n * D < a_stk a ->
    forall Q : env -> Prop, (forall r r1, started ini r r1 -> exists r', pmeans_seq decls (calling decls n) ss r1 Normal r' /\ Q r') ->
    exists s s' r' k, initialize a junk = HV s /\ run k (FinalModel.f_prog f) maxpc s = Some (Err eEXIT s') /\ Q r' /\
      same_regs s s' /\ sp s' = sp s /\ holding xs (fun x => stack_at a + 10 + voff x) s' r'.
Proof. exact program_executed. Qed.
Print Assumptions C89_program_partial.

(** The output of the compiler for the program of C87 *)
Example C88_text_case : FinalSpec.program_text rl_ops /\ FinalSpec.labels_once rl_ops /\ (forall p, In p rl_ops -> ~ FinalSpec.unsigned_branch (op p)).
Proof. exact (conj rl_text (conj rl_once rl_signed)). Qed.
Example C89_compiled_case : forall n, exists c1 c2, proutine rc_procs (60 + n) 80 81 0 None [] (start_at 1 (rc_toks ++ [semi])) = SDone c1 /\ out c1 = rl_proc /\
  pprogram rc_procs (60 + n) 9 6 (Some rl_proc) rc_inits (start_at 0 (rc_text ++ [kt tPERIOD])) = SDone c2 /\ out c2 = rl_ops.
Proof. exact rl_compiled. Qed.
(** The 73 bytes of the program, on a machine with 30009 bytes of stack: s is 5050. *)
Example C89_case : exists f s s' k,
  FinalModel.finalize 100 (write_program rl_ops) FinalModel.FHT_PROGRAM 9 [] [] = FinalModel.FDone f /\ length (FinalModel.f_prog f) = 73%nat /\
  initialize (mkAttr 256 5 30009 506 (Some [72; 101; 108; 108; 111]) 38) (fun _ => 77) = HV s /\
  run k (FinalModel.f_prog f) 73 s = Some (Err eEXIT s') /\ rd s' 138 = Some 5050.
Proof. exact real_case. Qed.
