(** From the program text to the run of the machine. *)

From Coq Require Import ZArith Bool List Lia ZifyBool.
From Verif Require Import Words WordLemmas State Opcodes Machine VmSpec HeapModel OptSpec EncodeModel EncodeSpec ExprModel ExprSpec StmtModel StmtSpec
  ActModel ActSpec BlockModel BlockSpec StartModel StartSpec StartProofs RecModel RecSpec RecCode RecProgram RealRun.
From Verif Require FinalModel FinalSpec FinalProofs FinalMain.
From Verif Require Import StmtSpec.
Import ListNotations.
Open Scope Z_scope.

Theorem program_executed procs decls : (forall q d, nth_error decls q = Some d -> declared procs decls d) ->
  forall xs dstack inits ini ts ss, pblock_text procs decls 0 xs dstack inits ini ts ss -> locals 0 dstack xs ->
  forall c b rest label inner, toks c = ts ++ b :: rest -> tk b = tPERIOD -> g_level c = 0 -> g_adjust c = 0 ->
  0 <= g_label c -> g_label c + 2 * Z.of_nat (length ts) <= 65535 -> 0 <= label <= 65535 ->
  exists c' main N,
    (forall n, (N <= n)%nat -> pprogram procs n label dstack inner inits c = SDone c') /\
    errs c' = errs c /\
    out c' = out c ++ match inner with Some code => code | None => [] end ++ main ++ [mkOp oEND 0 0] /\
    forall ops i, stands ops i (main ++ [mkOp oEND 0 0]) ->
    (forall q d, nth_error decls q = Some d -> exists code j, code_of procs d code /\ stands ops j code) ->
    FinalSpec.program_text ops -> FinalSpec.labels_once ops -> FinalSpec.code_size (FinalSpec.instructions ops) < 65536 ->
    (forall p, In p ops -> ~ FinalSpec.unsigned_branch (op p)) ->
    forall nf syms rels f, (length ops < nf)%nat ->
    FinalModel.finalize nf (write_program ops) FinalModel.FHT_PROGRAM label syms rels = FinalModel.FDone f ->
    forall D n, (forall q d, nth_error decls q = Some d -> d_need d <= D) -> 0 <= D ->
    forall a junk maxpc, startable a -> a_entry a = FinalModel.f_entry f -> Z.of_nat (length (FinalModel.f_prog f)) <= maxpc ->
    10 + whole dstack + 4 * Z.of_nat (length ts) + 4 + 2 * Z.of_nat n * D < a_stk a ->
    forall Q : env -> Prop, (forall r r1, started ini r r1 -> exists r', pmeans_seq decls (calling decls n) ss r1 Normal r' /\ Q r') ->
    exists s s' r' k, initialize a junk = HV s /\ run k (FinalModel.f_prog f) maxpc s = Some (Err eEXIT s') /\ Q r' /\
      same_regs s s' /\ sp s' = sp s /\ holding xs (fun x => stack_at a + 10 + voff x) s' r'.
Proof.
  intros Dc xs dstack inits ini ts ss Bt Lo c b rest label inner T Tb L A H1 H2 H3.
  destruct (pprogram_runs procs decls Dc xs dstack inits ini ts ss Bt Lo c b rest label inner T Tb L A H1 H2 H3)
    as (c' & main & N & C1 & C2 & C3 & C4 & X).
  exists c', main, N. split; [exact C1|]. split; [exact C2|]. split; [exact C3|].
  intros ops i Si Sp Tx Un Sz Nu nf syms rels f Ln Fi D n Dn D0 a junk maxpc St En Mx Rm Q Qm.
  destruct (X ops i Si Sp D n Dn D0 a junk St Rm Q Qm) as (s & s' & r' & I & R & Nt & Qr & Sr & Ss & Ho).
  pose proof (FinalMain.finalize_resolved _ _ _ _ _ _ _ Tx Ln Sz Nu Fi) as Re.
  destruct (machine_runs nf ops _ _ syms rels f maxpc Tx Un Sz Nu Ln Fi Mx i [] s _ [] s' R) as (k & K).
  destruct (start_ok a junk St) as (t & It & As & _). rewrite I in It. injection It as <-.
  assert (Pc : pc s = address_of ops i).
  { destruct As as [_ (_ & _ & _ & _ & ->) _]. rewrite En.
    destruct (FinalMain.finalize_symbols _ _ _ _ _ _ _ Tx Ln Fi) as (_ & Y & _).
    apply (FinalProofs.label_unique ops label); [exact Un|exact (Y eq_refl)|].
    apply image_label. destruct main as [|m main]; [discriminate C4|]. injection C4 as ->.
    unfold labelled. specialize (Si 0%nat _ eq_refl). rewrite Nat.add_0_r in Si. exact Si. }
  exists s, (with_pc s' (address_of ops (i + length main))), r', (k + 1)%nat. split; [exact I|]. split.
  { rewrite <- (real_end ops syms (FinalModel.f_prog f) maxpc Tx Un Sz Re Mx _ s' 0 Nt). rewrite <- (K 1%nat).
    rewrite <- Pc. destruct s; reflexivity. }
  split; [exact Qr|]. split; [exact Sr|]. split; [exact Ss|]. exact Ho.
Qed.
