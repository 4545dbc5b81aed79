(** C91, C92: the output of the compiler for a whole program is resolved without an error
    and executed by the p-machine. *)

From Coq Require Import ZArith Bool List.
From Verif Require Import Words State Opcodes EncodeModel Machine VmSpec HeapModel OptSpec ExprModel ExprSpec ExprCases StmtModel StmtSpec StmtCases
  ArrModel ArrCases ActModel ActSpec BlockModel BlockSpec StartModel StartSpec RecModel RecSpec RecCode RecText RecCases RealCases RealText RealTextCases.
From Verif Require FinalModel FinalSpec.
From Verif Require Import StmtSpec.
Import ListNotations.
Open Scope Z_scope.

(** What the compiler writes for a program with its procedures: instructions with
    operands in range, END only at the end, every label once, no unsigned branch; the
    label resolution comes to its end without an error.  Missing: the declarations that
    are not modelled in C87; units and external procedures. *)
Theorem C91_output_partial : forall procs decls, (forall q d, nth_error decls q = Some d -> declared procs decls d) ->
  (forall t, tk t = sPROC -> exists q d, nth_error decls q = Some d /\ procs t = d_proc d) ->
  forall xs dstack inits ini ts ss, pblock_text procs decls 0 xs dstack inits ini ts ss ->
  forall c b rest label inner ds, toks c = ts ++ b :: rest -> tk b = tPERIOD -> out c = [] ->
  g_level c = 0 -> g_adjust c = 0 -> g_continue c = 0 -> g_break c = 0 -> 0 < label ->
  made procs label ds (inner_code inner) (g_label c) -> (forall d, In d ds <-> In d decls) ->
  g_label c + 4 * Z.of_nat (length (toks c)) <= 65535 ->
  exists c' N, (forall n, (N <= n)%nat -> pprogram procs n label dstack inner inits c = SDone c') /\ errs c' = errs c /\
    FinalSpec.program_text (out c') /\ FinalSpec.labels_once (out c') /\ (forall p, In p (out c') -> ~ FinalSpec.unsigned_branch (op p)) /\
    forall nf rels, (length (out c') < nf)%nat -> exists f, FinalModel.finalize nf (write_program (out c')) FinalModel.FHT_PROGRAM label [] rels = FinalModel.FDone f.
Proof. exact output_resolved. Qed.
Print Assumptions C91_output_partial.

(** From the text of a program with procedures that call each other and themselves to the
    end of its execution: nothing is assumed of the output of the compiler but that it has
    less than 65536 bytes.  Missing: as in C91; the optimizer is not applied. *)
Theorem C92_program_partial : forall procs decls, (forall q d, nth_error decls q = Some d -> declared procs decls d) ->
  (forall t, tk t = sPROC -> exists q d, nth_error decls q = Some d /\ procs t = d_proc d) ->
  forall xs dstack inits ini ts ss, pblock_text procs decls 0 xs dstack inits ini ts ss -> locals 0 dstack xs ->
  forall c b rest label inner ds, toks c = ts ++ b :: rest -> tk b = tPERIOD -> out c = [] ->
  g_level c = 0 -> g_adjust c = 0 -> g_continue c = 0 -> g_break c = 0 -> 0 < label ->
  made procs label ds (inner_code inner) (g_label c) -> (forall d, In d ds <-> In d decls) ->
  g_label c + 4 * Z.of_nat (length (toks c)) <= 65535 ->
  exists c' N, (forall n, (N <= n)%nat -> pprogram procs n label dstack inner inits c = SDone c') /\ errs c' = errs c /\
    (FinalSpec.code_size (FinalSpec.instructions (out c')) < 65536 ->
     forall nf rels, (length (out c') < nf)%nat ->
     exists f, FinalModel.finalize nf (write_program (out c')) FinalModel.FHT_PROGRAM label [] rels = FinalModel.FDone f /\
     forall D n, (forall q d, nth_error decls q = Some d -> d_need d <= D) -> 0 <= D ->
     forall a junk maxpc, startable a -> a_entry a = FinalModel.f_entry f -> Z.of_nat (length (FinalModel.f_prog f)) <= maxpc ->
     10 + whole dstack + 4 * Z.of_nat (length ts) + 4 + 2 * Z.of_nat n * D < a_stk a ->
     forall Q : env -> Prop, (forall r r1, started ini r r1 -> exists r', pmeans_seq decls (calling decls n) ss r1 Normal r' /\ Q r') ->
     exists s s' r' k, initialize a junk = HV s /\ run k (FinalModel.f_prog f) maxpc s = Some (Err eEXIT s') /\ Q r' /\
       same_regs s s' /\ sp s' = sp s /\ holding xs (fun x => stack_at a + 10 + voff x) s' r').
Proof. exact whole_program. Qed.
Print Assumptions C92_program_partial.

(** The program of C87: labels 79 of the program, 80 of the procedure, 81 of its block, 82
    of its if statement; the values of the hypotheses. *)
Example C91_case : (forall q d, nth_error rc_decls q = Some d -> declared rc_procs rc_decls d) /\
  (forall t, tk t = sPROC -> exists q d, nth_error rc_decls q = Some d /\ rc_procs t = d_proc d) /\
  pblock_text rc_procs rc_decls 0 rc_vars 6 rc_inits rc_ini rc_text rc_main /\ locals 0 6 rc_vars /\
  made rc_procs 79 rc_decls (inner_code (Some tx_code)) (g_label tx_main) /\
  map (fun p => arg2 p) (filter (fun p => op p =? oLABEL) tx_ops) = [80; 81; 82; 79].
Proof. exact (conj rc_declares (conj tx_names (conj rc_block (conj rc_locals (conj tx_made eq_refl))))). Qed.
Example C92_case : exists f s s' k,
  FinalModel.finalize 100 (write_program tx_ops) FinalModel.FHT_PROGRAM 79 [] [] = FinalModel.FDone f /\ length (FinalModel.f_prog f) = 73%nat /\
  initialize (mkAttr 256 5 30009 506 (Some [72; 101; 108; 108; 111]) 38) (fun _ => 77) = HV s /\
  run k (FinalModel.f_prog f) 73 s = Some (Err eEXIT s') /\ rd s' 138 = Some 5050.
Proof. exact whole_case. Qed.
