(** Cases for the start of the machine and for programs, and what contradicts. *)

From Coq Require Import ZArith Bool List Lia ZifyBool.
From Verif Require Import Words State Opcodes EncodeModel Machine VmSpec HeapModel OptSpec ExprModel ExprSpec ExprOps ExprLoad ExprCases
  StmtModel StmtSpec StmtRun StmtCases ArrModel ArrCases ActModel ActSpec ActCases BlockModel BlockSpec BlockProofs BlockMain BlockCases
  StartModel StartSpec StartProofs StartMain.
From Verif Require Import StmtSpec.
Import ListNotations.
Open Scope Z_scope.

(** The state after the start can execute: the static chain is that of the main
    program, the registers are regular. *)
Lemma started_machine a junk : startable a -> exists s, initialize a junk = HV s /\ at_start a s /\ regular s /\ static_chain s (fp s) 0.
Proof.
  intros St. destruct (start_ok a junk St) as (s & I & A & _). exists s. split; [exact I|]. split; [exact A|].
  split; [apply (start_regular a s St A)|apply (start_chain a s A)].
Qed.

(** 256 bytes of strings, five bytes of read-only data, 1001 bytes of stack, a heap *)
Definition at_case := mkAttr 256 5 1001 506 (Some [72; 101; 108; 108; 111]) 3.
Lemma at_case_ok : startable at_case.
Proof.
  constructor; cbn [at_case a_str a_ro a_stk a_hp a_rodata a_entry].
  - lia.
  - vm_compute. congruence.
  - lia.
  - intros l H. injection H as <-. split; [reflexivity|]. repeat constructor; lia.
  - right. vm_compute. intuition congruence.
Qed.

(** An odd size of the strings: the data are not where RO addresses are relative to *)
Definition at_odd := mkAttr 7 2 100 0 (Some [72; 101]) 0.
Lemma at_odd_ok : startable at_odd.
Proof.
  constructor; cbn [at_odd a_str a_ro a_stk a_hp a_rodata a_entry].
  - lia.
  - vm_compute. congruence.
  - lia.
  - intros l H. injection H as <-. split; [reflexivity|]. repeat constructor; lia.
  - left. vm_compute. congruence.
Qed.
Lemma odd_refuted : exists a junk s l, startable a /\ a_rodata a = Some l /\ initialize a junk = HV s /\
  exists k b, nth_error l k = Some b /\ rdb s (c_rop (cf s) + Z.of_nat k) <> Some b.
Proof.
  destruct (start_ok at_odd (fun _ => 0) at_odd_ok) as (s & I & A & D).
  exists at_odd, (fun _ => 0), s, [72; 101]. split; [exact at_odd_ok|]. split; [reflexivity|]. split; [exact I|].
  exists 0%nat, 72. split; [reflexivity|]. vm_compute in I. injection I as <-. vm_compute. congruence.
Qed.

(** Each size is a 16-bit word, the sum is not. *)
Lemma sum_refuted : exists a, (forall junk, initialize a junk = HU) /\ 0 <= a_str a <= 65535 /\ 0 <= a_ro a <= 65535 /\
  0 <= a_stk a <= 65535 /\ 0 <= a_hp a <= 65535 /\ a_rodata a = None.
Proof.
  exists (mkAttr 20000 0 30000 20000 None 0). split; [|cbn; lia || (repeat split; try reflexivity; lia)]. intros junk.
  unfold initialize, reset, hopt, wr, in_word. cbn [a_rodata hbind]. set (z := sizes_of _). vm_compute in z. subst z. cbn. reflexivity.
Qed.

(** ** A program:
    var n : Integer = 3; x : Integer = 0;
    begin while n < 6 do begin x := x + n; n := n + 1 end end.
    with the files INPUT and OUTPUT *)

Definition sp_in := mkVar xWord 0 0.
Definition sp_out := mkVar xWord 0 2.
Definition sp_n := mkVar xInteger 0 4.
Definition sp_x := mkVar xInteger 0 6.
Definition sp_vars := [sp_in; sp_out; sp_n; sp_x].
Definition sp_loop := SWhile (erel sp_n Less 6) (SBlock (SMore (SAssign sp_x (eplus sp_x sp_n)) (SOne (incr sp_n 1)))).
Definition sp_tokens := kt tBEGIN :: (kt tWHILE :: trel sp_n tLT 6 ++ kt tDO ::
  (kt tBEGIN :: ((vt sp_x :: kt tASSIGN :: tplus sp_x sp_n) ++ semi :: tincr sp_n 1) ++ [kt tEND])) ++ [kt tEND].
Definition sp_inits := [IFile (mkSym 0 0 2 0) 0; IFile (mkSym 0 2 2 0) 1;
  add_var_initializer (mkSym 0 4 2 0) (kind_of xInteger) 3 0; add_var_initializer (mkSym 0 6 2 0) (kind_of xInteger) 0 0].
Definition sp_ini := [(sp_in, 0); (sp_out, 1); (sp_n, 3); (sp_x, 0)].

Lemma sp_grammar : gblock sp_tokens (SOne sp_loop).
Proof.
  apply gb_block; [reflexivity| |reflexivity]. eapply gs_one, gs_while; [reflexivity|apply grel; [vark|reflexivity]|reflexivity|].
  apply gs_block; [reflexivity| |reflexivity]. eapply gs_more; [apply gs_assign; [apply spelt; vark|reflexivity|apply gplus; vark]|reflexivity|].
  eapply gs_one, gincr; vark.
Qed.
Lemma sp_text : block_text 0 sp_vars 8 sp_inits sp_ini sp_tokens (SOne sp_loop).
Proof.
  constructor.
  - exact sp_grammar.
  - repeat split; try reflexivity; discriminate.
  - cbn. intros x H. repeat destruct H as [<-|H]; try destruct H; (split; [cbn; auto|repeat split; vm_compute; congruence]).
  - repeat constructor; vm_compute; congruence.
  - vm_compute. congruence.
  - constructor; [apply gives_file; vm_compute; intuition congruence|]. constructor; [apply gives_file; vm_compute; intuition congruence|].
    constructor; [apply (gives_value (mkSym 0 4 2 0) sp_n 3 0); vm_compute; congruence|].
    constructor; [apply (gives_value (mkSym 0 6 2 0) sp_x 0 0); vm_compute; congruence|constructor].
  - cbn [map fst sp_ini]. repeat first [apply NoDup_nil|apply NoDup_cons; [cbn; intuition discriminate|]].
  - cbn. intros x H. repeat destruct H as [<-|H]; try destruct H; (split; [cbn; auto|repeat split; vm_compute; congruence]).
  - lia.
Qed.
Lemma sp_locals : locals 0 8 sp_vars.
Proof.
  constructor.
  - cbn. intros x H. repeat destruct H as [<-|H]; try destruct H; cbn; lia.
  - cbn. intros x y H K N. unfold disjoint. repeat destruct H as [<-|H]; try destruct H; repeat destruct K as [<-|K]; try destruct K; try congruence; cbn; lia.
Qed.
Lemma sp_means : forall r r1, started sp_ini r r1 -> exists r', means_seq (SOne sp_loop) r1 Normal r' /\ r' sp_x = 12.
Proof.
  intros r r1 (S1 & S2).
  assert (Lim : forall z, -32768 <= z <= 32767 -> limit xInteger z = Some z)
    by (intros z Hz; unfold limit; replace (inr xInteger z) with true by (cbn; lia); reflexivity).
  assert (N1 : r1 sp_n = 3) by (apply S1; cbn; auto).
  assert (X1 : r1 sp_x = 0) by (apply S1; cbn; auto).
  assert (St : forall r n x, r sp_n = n -> r sp_x = x -> 0 <= n < 6 -> 0 <= x < 200 ->
    means (SBlock (SMore (SAssign sp_x (eplus sp_x sp_n)) (SOne (incr sp_n 1)))) r Normal (set (set r sp_x (x + n)) sp_n (n + 1)) /\
    evalue r xBoolean (erel sp_n Less 6) = Some (-1)).
  { intros q n x E1 E2 L1 L2. split.
    - exists Normal, (set q sp_x (x + n)). split.
      + exists (x + n). split; [|split; [|split; reflexivity]].
        * cbn. rewrite E1, E2. repeat (rewrite Lim by lia; cbn). reflexivity.
        * cbn. lia.
      + exists (n + 1). split; [|split; [|split; reflexivity]].
        * cbn. unfold set. cbn. rewrite E1. repeat (rewrite Lim by lia; cbn). reflexivity.
        * cbn. lia.
    - cbn. rewrite E1. repeat (rewrite Lim by lia; cbn). unfold value_rel. cbn. repeat (rewrite Lim by lia; cbn). replace (n <? 6) with true by lia. reflexivity. }
  destruct (St r1 3 0 N1 X1) as (B1 & T1); [lia|lia|].
  set (r2 := set (set r1 sp_x (0 + 3)) sp_n (3 + 1)) in *.
  destruct (St r2 4 3) as (B2 & T2); [reflexivity|reflexivity|lia|lia|].
  set (r3 := set (set r2 sp_x (3 + 4)) sp_n (4 + 1)) in *.
  destruct (St r3 5 7) as (B3 & T3); [reflexivity|reflexivity|lia|lia|].
  set (r4 := set (set r3 sp_x (7 + 5)) sp_n (5 + 1)) in *.
  exists r4. split; [|reflexivity]. split; [reflexivity|].
  eapply while_again; [exact T1|discriminate|exact B1|discriminate|].
  eapply while_again; [exact T2|discriminate|exact B2|discriminate|].
  eapply while_again; [exact T3|discriminate|exact B3|discriminate|]. apply while_end. reflexivity.
Qed.
Lemma program_case : exists c code s s', program_block 200 9 8 None sp_inits (start_at 0 (sp_tokens ++ [kt tPERIOD])) = SDone c /\ errs c = [] /\ out c = code ++ [mkOp oEND 0 0] /\
  initialize at_case (fun _ => 77) = HV s /\ runs (out c) (0%nat, s) (length code, s') /\ nth_error (out c) (length code) = Some (mkOp oEND 0 0) /\
  rd s' 139 = Some 12.
Proof.
  destruct (program_ok sp_vars 8 sp_inits sp_ini sp_tokens (SOne sp_loop) sp_text sp_locals (start_at 0 (sp_tokens ++ [kt tPERIOD])) (kt tPERIOD) [] 9 None)
    as (c & code & C & E & Ou & _ & X); try reflexivity; try (vm_compute; congruence); try (vm_compute; intuition congruence).
  cbn [start_at out app] in Ou.
  destruct (X (out c) 0%nat) with (a := at_case) (junk := fun _ : Z => 77) (Q := fun r : env => r sp_x = 12) as (s & s' & r' & I & R & Nt & Qr & Sr & _ & Ho).
  - rewrite Ou. intros k p H. exact H.
  - exact at_case_ok.
  - vm_compute. reflexivity.
  - exact sp_means.
  - exists c, code, s, s'. split; [apply C; vm_compute; lia|]. split; [rewrite E; reflexivity|]. split; [exact Ou|]. split; [exact I|].
    split; [exact R|]. split; [exact Nt|]. specialize (Ho sp_x ltac:(cbn; auto)). unfold contains in Ho. rewrite Qr in Ho. exact Ho.
Qed.
