(** Declarations that make the compiler run forever or follow a null pointer. *)

From Coq Require Import ZArith Bool List Lia.
From Verif Require Import Words ExprModel DeclModel DeclCases DeclEnds EndSpec EndBase.
Import ListNotations.
Open Scope Z_scope.

Lemma ends_of {A} (m : M A) d P : wp m d P -> m d <> NoFuel.
Proof. unfold wp. intros H E. rewrite E in H. exact H. Qed.
Lemma left_le d : (left_ d <= S (length (rest d)))%nat.
Proof. unfold left_, nz. destruct (gTok d =? 0); lia. Qed.

Lemma types_come_to_end n d : (S (length (rest d)) < n)%nat -> type_group n d <> NoFuel.
Proof. intros L. eapply ends_of, type_group_ends. pose proof (left_le d). lia. Qed.
Lemma variables_come_to_end n d : (S (length (rest d)) < n)%nat -> var_group n d <> NoFuel.
Proof. intros L. eapply ends_of, vars_end; pose proof (left_le d); lia. Qed.
Lemma parameters_come_to_end n pp d : (S (length (rest d)) < n)%nat -> formal_parameters n pp d <> NoFuel.
Proof. intros L. eapply ends_of, formal_ends. pose proof (left_le d). lia. Qed.

(** Parameters are of types with names: no loop along parents *)
Definition goes {A} (m : M A) : Prop := forall d, m d <> Hang.
Lemma goes_bind {A B} (m : M A) (k : A -> M B) : goes m -> (forall a, goes (k a)) -> goes (bind m k).
Proof. intros G K d. unfold bind. specialize (G d). destruct (m d) as [a d1| | | |]; first [apply K|congruence]. Qed.
Ltac goes :=
  repeat first
    [ solve [auto with goes] | apply goes_bind; [|intros] | solve [intros ?; discriminate]
    | match goal with
      | |- goes (if ?b then _ else _) => destruct b
      | |- goes (match ?b with _ => _ end) => destruct b
      end ].
Lemma goes_get p : goes (get_sym p).
Proof. intros d. unfold get_sym. destruct (nth_error (syms d) p); discriminate. Qed.
#[local] Hint Resolve goes_get : goes.
Lemma goes_type p : goes (get_type p). Proof. unfold get_type. goes. Qed.
#[local] Hint Resolve goes_type : goes.
Lemma goes_ident : goes type_identifier. Proof. unfold type_identifier. goes. Qed.
Lemma goes_expect t e : goes (expect t e). Proof. unfold expect. goes. Qed.
#[local] Hint Resolve goes_ident goes_expect : goes.
Lemma goes_parameter k : forall b, goes (declare_parameter k b).
Proof. induction k as [|k IH]; intros b; cbn [declare_parameter]; goes. Qed.
#[local] Hint Resolve goes_parameter : goes.
Lemma goes_sections k : forall n, goes (parameter_sections k n).
Proof. induction k as [|k IH]; intros n; cbn [parameter_sections]; goes. Qed.
Lemma goes_offsets i : forall pp off, goes (parameter_offsets i pp off).
Proof. induction i as [|i IH]; intros pp off; cbn [parameter_offsets]; goes. Qed.
#[local] Hint Resolve goes_sections goes_offsets : goes.
Lemma goes_formal n pp : goes (formal_parameters n pp). Proof. unfold formal_parameters. goes. Qed.
Lemma parameters_end n pp d : (S (length (rest d)) < n)%nat -> formal_parameters n pp d <> NoFuel /\ formal_parameters n pp d <> Hang.
Proof. intros L. split; [apply parameters_come_to_end; exact L|apply goes_formal]. Qed.

(** A group of types, then the word var and a group of variables *)
Definition program (l : list raw) : out unit :=
  match type_group (S (S (length l))) (at_start standard l) with
  | Done _ d => var_group (S (S (length l))) (next_from (gLevel d) d)
  | o => o
  end.

(** p = ^p; var x : p
    t = array [0..1] of t; var x : t
    t = array [0..1] of ^t; var x : t
    a = ^b; b = ^a; var x : a *)
Lemma hang_case : forall l, In l
  [[RId 20; RK tEQ; RK tCARET; RId 20; RK tSEMI; RK tVAR; RId 21; RK tCOLON; RId 20; RK tSEMI];
   [RId 20; RK tEQ; RK tARRAY; RK tLBRACK; RInt 0; RK tSUBRANGE; RInt 1; RK tRBRACK; RK tOF; RId 20; RK tSEMI;
    RK tVAR; RId 21; RK tCOLON; RId 20; RK tSEMI];
   [RId 20; RK tEQ; RK tARRAY; RK tLBRACK; RInt 0; RK tSUBRANGE; RInt 1; RK tRBRACK; RK tOF; RK tCARET; RId 20; RK tSEMI;
    RK tVAR; RId 21; RK tCOLON; RId 20; RK tSEMI];
   [RId 20; RK tEQ; RK tCARET; RId 21; RK tSEMI; RId 21; RK tEQ; RK tCARET; RId 20; RK tSEMI;
    RK tVAR; RId 22; RK tCOLON; RId 20; RK tSEMI]] -> program l = Hang.
Proof. intros l I. repeat (destruct I as [<-|I]; [vm_compute; reflexivity|]). destruct I. Qed.

(** var x : ;
    var x : array ['a'..'z'] of integer
    var x : array [-5..5] of integer
    var x : packed record a : integer end
    var x : ^y
    r = record next : ^s end; *)
Lemma crash_case : forall l, In l
  [[RK tVAR; RId 21; RK tCOLON; RK tSEMI];
   [RK tVAR; RId 21; RK tCOLON; RK tARRAY; RK tLBRACK; RChr 97; RK tSUBRANGE; RChr 122; RK tRBRACK; RK tOF; RId 1; RK tSEMI];
   [RK tVAR; RId 21; RK tCOLON; RK tARRAY; RK tLBRACK; RK tMINUS; RInt 5; RK tSUBRANGE; RInt 5; RK tRBRACK; RK tOF; RId 1; RK tSEMI];
   [RK tVAR; RId 21; RK tCOLON; RK tPACKED; RK tRECORD; RId 22; RK tCOLON; RId 1; RK tEND; RK tSEMI];
   [RId 20; RK tEQ; RK tRECORD; RId 22; RK tCOLON; RK tCARET; RId 21; RK tEND; RK tSEMI; RK tVAR]] -> program l = UB.
Proof. intros l I. repeat (destruct I as [<-|I]; [vm_compute; reflexivity|]). destruct I. Qed.

(** p = ^r; r = record n : p; v : integer end; var x : r; y : p *)
Definition ex_chain : list raw :=
  [RId 20; RK tEQ; RK tCARET; RId 21; RK tSEMI;
   RId 21; RK tEQ; RK tRECORD; RId 22; RK tCOLON; RId 20; RK tSEMI; RId 23; RK tCOLON; RId 1; RK tEND; RK tSEMI;
   RK tVAR; RId 24; RK tCOLON; RId 21; RK tSEMI; RId 25; RK tCOLON; RId 20; RK tSEMI].
Lemma chain_case : exists d, program ex_chain = Done tt d /\ derrs d = [] /\ rest d = [].
Proof. eexists. split; [vm_compute; reflexivity|]. split; vm_compute; reflexivity. Qed.

(** The type p in p = ^p; *)
Definition ex_self : ds := done (type_group 10 (at_start standard [RId 20; RK tEQ; RK tCARET; RId 20; RK tSEMI; RK tVAR])) d0.
Lemma self_case : exists s, nth_error (syms ex_self) 5 = Some s /\ sName s = 20 /\ circular (syms ex_self) 5 /\ base_type 5 ex_self = Hang.
Proof.
  assert (H : base_type 5 ex_self = Hang) by (vm_compute; reflexivity).
  eexists. split; [vm_compute; reflexivity|]. split; [vm_compute; reflexivity|]. split; [apply base_hangs|]; exact H.
Qed.
