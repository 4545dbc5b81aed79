(** Properties of SIZEOF. *)

From Coq Require Import ZArith Bool List Lia.
From Verif Require Import State Opcodes EncodeModel Machine VmSpec ExprModel ExprSpec ExprRun ExprLoad ExprCases StmtModel
  ArrModel ArrCases SizeModel SizeSpec SizeMain SizeCases.
Import ListNotations.
Open Scope Z_scope.

(** ** C103 SIZEOF *)

(** Partial: v is not a parameter passed by reference, and the size is an Integer. *)
Theorem C103_size_partial : forall alloc passed ts v z, gsize ts v -> size_is alloc passed v z -> tk v <> 0x5a -> 0 <= z <= 32767 ->
  exists code,
    (forall c rest, toks c = ts ++ rest -> exists c', size_function alloc c = Done xInteger c' /\ errorless c c' rest code) /\ gives code z.
Proof. exact size_partial. Qed.
Print Assumptions C103_size_partial.

(** A LongInteger, an array, a larger array, a parameter *)
Example C103_case : (forall v, gsize (size_of_v v) v) /\
  size_is no_alloc four long_tok 4 /\ size_is no_alloc four arr_tok 600 /\ size_is no_alloc four big_tok 40000 /\ size_is no_alloc four refp_tok 4.
Proof. split; [exact size_grammar|exact size_cases]. Qed.

(** What is accepted is SIZEOF with the name of a variable or of a type. *)
Theorem C103_accepted : forall alloc passed c t c', size_function alloc c = Done t c' -> errs c' = errs c ->
  t = xInteger /\ exists ts v z, toks c = ts ++ toks c' /\ gsize ts v /\ size_is alloc passed v z.
Proof. exact size_accepted. Qed.
Print Assumptions C103_accepted.

Example C103_accepted_case : exists c', size_function no_alloc (start (size_of_v arr_tok)) = Done xInteger c' /\ errs c' = [] /\ toks c' = [].
Proof. eexists. split; [vm_compute; reflexivity|]. split; reflexivity. Qed.

(** Sizes from 32768 are accepted, but not given: the value is that of the lower 16 bits. *)
Theorem C103_large_refuted : forall alloc passed ts v z, gsize ts v -> size_is alloc passed v z -> tk v <> 0x5a -> 32768 <= z ->
  exists code,
    (forall c rest, toks c = ts ++ rest -> exists c', size_function alloc c = Done xInteger c' /\ errorless c c' rest code) /\
    ~ gives code z /\ forall s, room s 1 -> exists s', exec_list code s = Ok s' /\ pushed s s' [z mod 65536].
Proof. exact large_never. Qed.
Print Assumptions C103_large_refuted.

(** The size of a parameter passed by reference is 2, that of an address, whatever is passed. *)
Theorem C103_reference_refuted : forall alloc passed ts v, gsize ts v -> tk v = 0x5a -> 0 <= passed v <= 32767 -> passed v <> 2 ->
  exists code,
    (forall c rest, toks c = ts ++ rest -> exists c', size_function alloc c = Done xInteger c' /\ errorless c c' rest code) /\
    gives code 2 /\ ~ gives code (passed v).
Proof. exact reference_two. Qed.
Print Assumptions C103_reference_refuted.

(** SIZEOF in the declaration of a constant: the value of the constant is what it was before,
    and an instruction is generated. *)
Theorem C103_constant_refuted : forall alloc passed ts v z k, gsize ts v -> size_is alloc passed v z -> tk v <> 0x5a ->
  forall c rest, toks c = ts ++ rest ->
  exists c', size_constant alloc k c = (k, c') /\ errorless c c' rest [mkOp oPUSH 0 (z mod 65536)].
Proof. exact constant_unset. Qed.
Print Assumptions C103_constant_refuted.
