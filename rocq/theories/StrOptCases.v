(** Cases for the pass for strings *)

From Coq Require Import ZArith Bool List Lia ZifyBool Relations.Relation_Operators.
From Verif Require Import Words State Opcodes Machine PoptModel PoptLongModel StrOptModel StrOptSpec StrOptProofs.
From Verif Require HeapModel StringModel StringCases.
Import ListNotations.
Open Scope Z_scope.

(** Execution of instructions one after the other; the string library is that of
    StringModel.v, with STRING_BUFFER_SIZE 80. *)
Fixpoint exec_lib (code : list opType) (s : st) : option st :=
  match code with
  | [] => Some s
  | o :: r =>
    if op o =? oLABEL then exec_lib r s
    else if op o =? oEND then Some s
    else match (if op o =? oSTRLIB then StringModel.string_op 80 s (arg2 o) else exec_insn s o) with
         | Ok s' => exec_lib r s'
         | _ => None
         end
  end.
Definition lib (f : Z) : opType := mkOp oSTRLIB 0 f.
Definition pushw (w : Z) : opType := mkOp oPUSH 0 w.
Definition dup_code : list opType := [mkOp oLABEL 0 1; mkOp oLAC 0 4; lib 9; pushw 10; lib 13; mkOp oEND 0 0].
Definition dup_opt : list opType := [mkOp oLABEL 0 1; mkOp oLAC 0 4; pushw 10; lib 13; mkOp oEND 0 0].
(** A data stack of 64K with an empty heap; the operands of STRCMP *)
Definition dup_st0 : st :=
  let s := StringCases.scene StringCases.zero 0 [3; 5; 270; 1] [] [(80, [97]); (260, [98]); (270, [98])] in
  mkSt (mem s) (mkCfg 65536 512 768 256 256) (sp s) (csp s) (fp s) (pc s) (lsp s) (fch s).
Definition dup_st : st := match HeapModel.init_heap dup_st0 with HeapModel.HV s => s | _ => dup_st0 end.
Definition top (r : option st) : option Z := match r with Some s => rd s (sp s / 2) | None => None end.
Lemma dup_label : has_label dup_code.
Proof. exists [], (mkOp oLABEL 0 1), (tl dup_code). split; [reflexivity|]. split; [reflexivity|]. intros x []. Qed.
Lemma dup_refuted : exists l out s a b, has_label l /\ (forall k m n, (length l <= k)%nat -> (16 < m)%nat -> (16 < n)%nat -> string_optimize k m n l = OResult out) /\
  top (exec_lib l s) = Some a /\ top (exec_lib out s) = Some b /\ a <> b.
Proof.
  exists dup_code, dup_opt, dup_st, 98, 65535. split; [exact dup_label|]. split; [|split; [vm_compute; reflexivity|split; [vm_compute; reflexivity|discriminate]]].
  intros k m n Hk Hm Hn. cbn [length dup_code] in Hk.
  do 6 (destruct k as [|k]; [lia|]). do 17 (destruct m as [|m]; [lia|]). do 17 (destruct n as [|n]; [lia|]). vm_compute. reflexivity.
Qed.

(** What the compiler generates for the assignment of a string constant to a string
    variable: pas_expression.c:989-1023, pas_statement.c:1240-1290.  STRDUP stays, there is
    another instruction between LAC and STRDUP. *)
Definition assigned (n off lev a : Z) : list opType := [pushw n; mkOp oLAC 0 off; pushw n; lib 9; mkOp oLAS lev a; lib 0].
Lemma constant_refuted : forall n off lev a, exists l, l = [mkOp oLABEL 0 1] ++ assigned n off lev a ++ [mkOp oEND 0 0] /\ has_label l /\
  forall k m p, (length l <= k)%nat -> (16 < m)%nat -> (16 < p)%nat -> string_optimize k m p l = OResult l.
Proof.
  intros n off lev a. eexists. split; [reflexivity|]. split.
  { exists [], (mkOp oLABEL 0 1), (assigned n off lev a ++ [mkOp oEND 0 0]). split; [reflexivity|]. split; [reflexivity|]. intros x []. }
  intros k m p Hk Hm Hp. cbn [length assigned app] in Hk.
  do 8 (destruct k as [|k]; [lia|]). do 17 (destruct m as [|m]; [lia|]). do 17 (destruct p as [|p]; [lia|]). vm_compute. reflexivity.
Qed.

(** A program in which a string constant is assigned, and one with a STRDUP that is
    deleted *)
Definition str_code : list opType := [mkOp oLABEL 0 1] ++ assigned 3 0 0 4 ++ [mkOp oNOP 0 0; mkOp oEND 0 0].
Lemma str_no_dup : no_constant_dup str_code.
Proof.
  intros a lac b dup c E O I (D1 & D2).
  assert (X : forall p, finds p str_code = true) by (intros p; rewrite E; apply finds_dup; auto; split; assumption). specialize (X false). vm_compute in X. discriminate.
Qed.
Lemma str_label : has_label str_code.
Proof. exists [], (mkOp oLABEL 0 1), (tl str_code). split; [reflexivity|]. split; [reflexivity|]. intros x []. Qed.
