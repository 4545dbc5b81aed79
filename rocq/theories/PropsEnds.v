(** Properties of reading declarations: it comes to an end. *)

From Coq Require Import ZArith Bool List.
From Verif Require Import Words ExprModel DeclModel DeclCases EndSpec EndBase EndCases.
Import ListNotations.
Open Scope Z_scope.

(** ** C81 Reading declarations comes to an end *)

(** Whatever the words are and whatever the table holds, no loop and no
    recursion over the words takes more steps than there are words.  Missing: the
    loop along the parents of a type, which does not depend on the words, refuted
    below; it may be entered and not left ([Hang]). *)
Theorem C81_types_end_partial : forall n d, (S (length (rest d)) < n)%nat -> type_group n d <> NoFuel.
Proof. exact types_come_to_end. Qed.
Print Assumptions C81_types_end_partial.
Theorem C81_variables_end_partial : forall n d, (S (length (rest d)) < n)%nat -> var_group n d <> NoFuel.
Proof. exact variables_come_to_end. Qed.
Print Assumptions C81_variables_end_partial.
Theorem C81_parameters_end : forall n pp d, (S (length (rest d)) < n)%nat ->
  formal_parameters n pp d <> NoFuel /\ formal_parameters n pp d <> Hang.
Proof. exact parameters_end. Qed.
Print Assumptions C81_parameters_end.

(** The loop along the parents goes on forever exactly when they lead around in a circle. *)
Theorem C81_base_type : forall p d, base_type p d = Hang <-> circular (syms d) p.
Proof. exact base_hangs. Qed.
Print Assumptions C81_base_type.

Example C81_chain_case : exists d, program ex_chain = Done tt d /\ derrs d = [] /\ rest d = [].
Proof. exact chain_case. Qed.

Example C81_self_case : exists s, nth_error (syms ex_self) 5 = Some s /\ sName s = 20 /\ circular (syms ex_self) 5 /\ base_type 5 ex_self = Hang.
Proof. exact self_case. Qed.

(** p = ^p; var x : p
    t = array [0..1] of t; var x : t
    t = array [0..1] of ^t; var x : t
    a = ^b; b = ^a; var x : a *)
Theorem C81_cycle_refuted : forall l, In l
  [[RId 20; RK tEQ; RK tCARET; RId 20; RK tSEMI; RK tVAR; RId 21; RK tCOLON; RId 20; RK tSEMI];
   [RId 20; RK tEQ; RK tARRAY; RK tLBRACK; RInt 0; RK tSUBRANGE; RInt 1; RK tRBRACK; RK tOF; RId 20; RK tSEMI;
    RK tVAR; RId 21; RK tCOLON; RId 20; RK tSEMI];
   [RId 20; RK tEQ; RK tARRAY; RK tLBRACK; RInt 0; RK tSUBRANGE; RInt 1; RK tRBRACK; RK tOF; RK tCARET; RId 20; RK tSEMI;
    RK tVAR; RId 21; RK tCOLON; RId 20; RK tSEMI];
   [RId 20; RK tEQ; RK tCARET; RId 21; RK tSEMI; RId 21; RK tEQ; RK tCARET; RId 20; RK tSEMI;
    RK tVAR; RId 22; RK tCOLON; RId 20; RK tSEMI]] -> program l = Hang.
Proof. exact hang_case. Qed.
Print Assumptions C81_cycle_refuted.

(** A null pointer is followed for
    var x : ;
    var x : array ['a'..'z'] of integer
    var x : array [-5..5] of integer
    var x : packed record a : integer end
    r = record next : ^s end; *)
Theorem C81_null_refuted : forall l, In l
  [[RK tVAR; RId 21; RK tCOLON; RK tSEMI];
   [RK tVAR; RId 21; RK tCOLON; RK tARRAY; RK tLBRACK; RChr 97; RK tSUBRANGE; RChr 122; RK tRBRACK; RK tOF; RId 1; RK tSEMI];
   [RK tVAR; RId 21; RK tCOLON; RK tARRAY; RK tLBRACK; RK tMINUS; RInt 5; RK tSUBRANGE; RInt 5; RK tRBRACK; RK tOF; RId 1; RK tSEMI];
   [RK tVAR; RId 21; RK tCOLON; RK tPACKED; RK tRECORD; RId 22; RK tCOLON; RId 1; RK tEND; RK tSEMI];
   [RId 20; RK tEQ; RK tRECORD; RId 22; RK tCOLON; RK tCARET; RId 21; RK tEND; RK tSEMI; RK tVAR]] -> program l = UB.
Proof. exact crash_case. Qed.
Print Assumptions C81_null_refuted.
