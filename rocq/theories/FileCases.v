(** The statements about files: cases, and what contradicts Pascal. *)

From Coq Require Import ZArith Bool List Arith Lia ZifyBool.
From Verif Require Import Words State Opcodes EncodeModel Machine VmSpec ExprModel ExprSpec ExprRun ExprOps ExprLoad ExprProofs ExprCases
  StmtModel ArrModel ArrCases WriteModel WriteSpec WriteRun WriteMain WriteCases ReadModel FileModel FileSpec FileMain.
From Verif Require SysioModel SysioSpec.
Import ListNotations.
Open Scope Z_scope.

(** RESET(f, x); f contains 2, x contains 300 *)
Definition size_tokens := [std txRESET; kt tLPAREN; filev; kt tCOMMA; vt xw; kt tRPAREN].
Lemma size_grammar : gfile 0 outv size_tokens fx FOpenRead (Some (evar xw)).
Proof.
  apply (gf_size 0 outv (std txRESET) (kt tLPAREN) filev fx (kt tCOMMA) [vt xw] (evar xw) (kt tRPAREN) FOpenRead); try reflexivity.
  - left. reflexivity.
  - split; [left; reflexivity|]. repeat split.
  - repeat split; vm_compute; congruence.
  - apply gvar. cbn. intuition discriminate.
  - intros y [<-|[]]. repeat split; vm_compute; congruence.
Qed.
Definition fl_env (x : var) : Z := if voff x =? 4 then 2 else 300.
Definition vmf := mkSt (fun i => if i =? 100 then 1 else if i =? 101 then 300 else if i =? 102 then 2 else 0)
                       (mkCfg 4096 200 2000 0 1000) 206 0 200 0 0 0.
Definition opening := SysioModel.mkEnv (Some [97; 10]) false [].
Lemma fl_state : room vmf 12 /\ (forall z, In z (fx :: wvars (Some (evar xw))) -> located 0 vmf z (fl_env z)) /\ 0 <= fl_env fx < 8 /\
  (8 <= length (SysioModel.ftab io0))%nat /\ size_is fl_env (Some (evar xw)) (Some 300) /\ possible opening (fl_env fx) FOpenRead io0.
Proof.
  split; [run|]. split; [|repeat split; try (vm_compute; congruence); cbn; lia].
  intros z [<-|[<-|[]]] s' R S; [exists 204|exists 202]; (split; [|split; [vm_compute; congruence|]]).
  - destruct R as (C & _). unfold var_address, global_ea, word16. cbn [vlev Z.eqb fx xw voff]. rewrite C. split; [lia|exists 0; reflexivity].
  - unfold contains. cbn [vty fx]. rewrite S by (vm_compute; congruence). vm_compute. reflexivity.
  - destruct R as (C & _). unfold var_address, global_ea, word16. cbn [vlev Z.eqb fx xw voff]. rewrite C. split; [lia|exists 0; reflexivity].
  - unfold contains. cbn [vty xw]. rewrite S by (vm_compute; congruence). vm_compute. reflexivity.
Qed.
Lemma size_compiled : exists c', file_statement outs 60 (start size_tokens) = ADone c' /\ errs c' = [] /\ toks c' = [].
Proof. eexists. split; [vm_compute; reflexivity|split; reflexivity]. Qed.

(** ** What contradicts Pascal *)

(** RESET without a file, RESET() and RESET(, 300) are accepted. *)
Definition no_file : list (list tok) :=
  [[std txRESET]; [std txRESET; kt tLPAREN; kt tRPAREN]; [std txRESET; kt tLPAREN; kt tCOMMA; nt 300; kt tRPAREN]].
Lemma no_file_refuted : forall ts, In ts no_file -> (forall lev outx x p w, ~ gfile lev outx ts x p w) /\
  exists c', (forall n, file_statement outs (60 + n) (start ts) = ADone c') /\ errs c' = [] /\ toks c' = [].
Proof.
  intros ts H. split.
  - intros lev outx x p w G. cbn [no_file In] in H. destruct H as [<-|[<-|[<-|[]]]]; inversion G; subst;
      try match goal with Q : ?p = FPage \/ ?p = FFlush |- _ => destruct Q; subst; discriminate end;
      match goal with Q : names_file _ _ |- _ => destruct Q as ([Q|Q] & _); discriminate Q end.
  - cbn [no_file In] in H. destruct H as [<-|[<-|[<-|[]]]]; (eexists; split; [intros n; vm_compute; reflexivity|split; reflexivity]).
Qed.

(** RESET of a file that is open for reading ends the program. *)
Definition open_f : SysioModel.io :=
  SysioModel.put io0 2 (SysioModel.mkEntry [97] true true false 1 (Some (SysioModel.mkStream [97; 10] [] false)) SysioModel.eOPEN_READ).
Definition reset_f := [std txRESET; kt tLPAREN; filev; kt tRPAREN].
Definition close_f := [std txCLOSEFILE; kt tLPAREN; filev; kt tRPAREN].
Lemma again_refuted : exists code c', gfile 0 outv reset_f fx FOpenRead None /\
  file_statement outs 60 (start reset_f) = ADone c' /\ errorless (start reset_f) c' [] code /\
  located 0 vmf fx 2 /\ SysioSpec.readable open_f 2 (SysioModel.mkStream [97; 10] [] false) /\ SysioModel.e_open opening <> None /\
  exec_io opening code vmf open_f = None.
Proof.
  eexists _, _. split; [|split; [vm_compute; reflexivity|split; [repeat split; vm_compute; reflexivity|]]].
  { apply (gf_file 0 outv (std txRESET) (kt tLPAREN) filev fx (kt tRPAREN) FOpenRead); try reflexivity; [split; [left; reflexivity|repeat split]|repeat split; vm_compute; congruence]. }
  split; [exact (proj1 (proj2 fl_state) fx (or_introl eq_refl))|].
  split; [split; [lia|split; [apply Nat.leb_le; reflexivity|split; reflexivity]]|]. split; [discriminate|]. vm_compute. reflexivity.
Qed.

(** READ(f, c); CLOSEFILE(f); RESET(f): nothing has been read of the file, but EOLN(f) is
    true. *)
Definition chv := mkVar xChar 0 0.
Definition read_f := [std txREAD; kt tLPAREN; filev; kt tCOMMA; vt chv; kt tRPAREN].
Definition left_in (r : option (st * SysioModel.io)) (n : Z) : option (list Z) :=
  match r with Some (_, t) => match SysioModel.e_str (SysioModel.ent t n) with Some x => Some (SysioModel.rest x) | None => None end | None => None end.
Definition on_top (r : option (st * SysioModel.io)) : option Z := match r with Some (s, _) => tos s 0 | None => None end.
Lemma eoln_refuted : exists code1 code2 code3 c1 c2 c3,
  read_statement outs 60 (start read_f) = ADone c1 /\ errorless (start read_f) c1 [] code1 /\
  file_statement outs 60 (start close_f) = ADone c2 /\ errorless (start close_f) c2 [] code2 /\
  file_statement outs 60 (start reset_f) = ADone c3 /\ errorless (start reset_f) c3 [] code3 /\
  left_in (exec_io opening (code1 ++ code2 ++ code3) vmf open_f) 2 = Some [97; 10] /\
  on_top (exec_io opening ((code1 ++ code2 ++ code3) ++ [refer 0 oLDS fx; io_code SysioModel.xEOLN]) vmf open_f) = Some 65535.
Proof.
  eexists _, _, _, _, _, _. split; [vm_compute; reflexivity|]. split; [repeat split; vm_compute; reflexivity|].
  split; [vm_compute; reflexivity|]. split; [repeat split; vm_compute; reflexivity|].
  split; [vm_compute; reflexivity|]. split; [repeat split; vm_compute; reflexivity|]. split; vm_compute; reflexivity.
Qed.
