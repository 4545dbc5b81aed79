(** C87: programs with procedures that call each other and themselves. *)

From Coq Require Import ZArith Bool List.
From Verif Require Import Words State Opcodes EncodeModel Machine VmSpec HeapModel OptSpec ExprModel ExprSpec ExprOps ExprLoad ExprCases
  StmtModel StmtSpec StmtRun StmtCases ArrModel ArrCases ActModel ActSpec ActCases BlockModel BlockSpec BlockCases
  StartModel StartSpec StartProofs StartMain StartCases RecModel RecSpec RecCode RecProgram RecCases.
From Verif Require Import StmtSpec.
Import ListNotations.
Open Scope Z_scope.

(** Every procedure of a list of procedures, whose bodies may call all of them that
    are visible there, is compiled without an error, and the compiler comes to an end.
    Missing: calls of functions in expressions, parameters passed by reference. *)
Theorem C87_procedure_partial : forall procs decls, (forall q d, nth_error decls q = Some d -> declared procs decls d) ->
  forall q d, nth_error decls q = Some d -> forall c b rest label inner, before_body d c b rest label ->
  exists c' code N, (forall n, (N <= n)%nat -> proutine procs n (pLabel (d_proc d)) label (d_dstack d) inner (d_inits d) c = SDone c') /\
    toks c' = rest /\ errs c' = errs c /\ g_level c' = g_level c - 1 /\
    out c' = out c ++ mkOp oLABEL 0 (pLabel (d_proc d)) :: code ++ [mkOp oRET 0 0] /\
    code_of procs d (mkOp oLABEL 0 (pLabel (d_proc d)) :: code ++ [mkOp oRET 0 0]).
Proof. exact procedure_compiled. Qed.
Print Assumptions C87_procedure_partial.

(** A program that contains the code of the main block and of the procedures: from
    the start of the machine, the code of the main block comes to the instruction END,
    and the global variables have the values that the statements give them, when the
    calls nest at most [n] deep and the stack has room for [n] calls.  Missing: as
    above. *)
Theorem C87_program_partial : forall procs decls, (forall q d, nth_error decls q = Some d -> declared procs decls d) ->
  forall xs dstack inits ini ts ss, pblock_text procs decls 0 xs dstack inits ini ts ss -> locals 0 dstack xs ->
  forall c b rest label inner, toks c = ts ++ b :: rest -> tk b = tPERIOD -> g_level c = 0 -> g_adjust c = 0 ->
  0 <= g_label c -> g_label c + 2 * Z.of_nat (length ts) <= 65535 -> 0 <= label <= 65535 ->
  exists c' main N,
    (forall n, (N <= n)%nat -> pprogram procs n label dstack inner inits c = SDone c') /\
    errs c' = errs c /\
    out c' = out c ++ match inner with Some code => code | None => [] end ++ main ++ [mkOp oEND 0 0] /\
    hd_error main = Some (mkOp oLABEL 0 label) /\
    forall prog i, stands prog i (main ++ [mkOp oEND 0 0]) ->
    (forall q d, nth_error decls q = Some d -> exists code j, code_of procs d code /\ stands prog j code) ->
    forall D n, (forall q d, nth_error decls q = Some d -> d_need d <= D) -> 0 <= D ->
    forall a junk, startable a -> 10 + whole dstack + 4 * Z.of_nat (length ts) + 4 + 2 * Z.of_nat n * D < a_stk a ->
    forall Q : env -> Prop, (forall r r1, started ini r r1 -> exists r', pmeans_seq decls (calling decls n) ss r1 Normal r' /\ Q r') ->
    exists s s' r', initialize a junk = HV s /\ cruns prog (i, [], s) ((i + length main)%nat, [], s') /\
      nth_error prog (i + length main) = Some (mkOp oEND 0 0) /\ Q r' /\
      same_regs s s' /\ sp s' = sp s /\ holding xs (fun x => stack_at a + 10 + voff x) s' r'.
Proof. exact pprogram_runs. Qed.
Print Assumptions C87_program_partial.

(** var s : Integer = 0;
    procedure p(k : Integer); begin if k > 0 then begin s := s + k; p(k - 1) end end;
    begin p(100) end. *)
Example C87_declared_case : forall q d, nth_error [mkDecl rc_proc [ByValue xInteger] rc_vars [] 0 [] [] rc_toks
    (POne (PIf (erel rc_k Greater 0) (PBlock (PMore (PAssign rc_s (eplus rc_s rc_k)) (POne (PCall 0 [eless]))))))] q = Some d ->
  declared rc_procs rc_decls d.
Proof. exact rc_declares. Qed.
Example C87_before_case : before_body rc_decl (start_at 1 (rc_toks ++ [semi])) semi [] 81.
Proof. exact rc_before. Qed.
Example C87_text_case : pblock_text rc_procs rc_decls 0 rc_vars 6 rc_inits rc_ini rc_text (POne (PCall 0 [ESimple (ten 100)])) /\ locals 0 6 rc_vars.
Proof. exact (conj rc_block rc_locals). Qed.
(** p(m) adds 1 + ... + m to s, for every m. *)
Example C87_means_case : forall m, Z.of_nat m <= 200 -> forall r, 0 <= r rc_s -> r rc_s + tri m <= 32767 ->
  calling rc_decls (S m) 0%nat r [Z.of_nat m] (set r rc_s (r rc_s + tri m)).
Proof. exact rc_means. Qed.

(** At the end, s is 5050. *)
Example C87_case : exists n c1 c2 i main s s', proutine rc_procs n 80 81 0 None [] (start_at 1 (rc_toks ++ [semi])) = SDone c1 /\ errs c1 = [] /\
  pprogram rc_procs n 9 6 (Some (out c1)) rc_inits (start_at 0 (rc_text ++ [kt tPERIOD])) = SDone c2 /\ errs c2 = [] /\
  out c2 = out c1 ++ main ++ [mkOp oEND 0 0] /\ i = length (out c1) /\
  initialize at_rec (fun _ => 77) = HV s /\ cruns (out c2) (i, [], s) ((i + length main)%nat, [], s') /\
  nth_error (out c2) (i + length main) = Some (mkOp oEND 0 0) /\ rd s' 138 = Some 5050.
Proof. exact procedures_case. Qed.
