(** Properties of enumerated types, subranges and sets. *)

From Coq Require Import ZArith Bool List Lia.
From Verif Require Import Words ExprModel DeclModel DeclSpec DeclCases RangeSpec RangeProofs RangeSound RangeComplete RangeCases.
Import ListNotations.
Open Scope Z_scope.

(** ** C79 Ordinal types *)

(** What is accepted without an error is an ordinal type, and the table says what
    is written.  Missing: integers above 32767, refuted below. *)
Theorem C79_accepted_partial : forall k name d p d',
  new_simple_type k name (next_from 0 d) = Done (Some p) d' -> derrs d' = derrs d ->
  Forall fit_word (rest d) -> Forall fit_sym (syms d) -> Z.of_nat (length (rest d)) < 2147483648 ->
  exists w r t new, ordinal (syms d) name w t new /\ p = length (syms d) /\ read d w r (mkS name 0x44 (PType t) :: new) d'.
Proof. exact accepted. Qed.
Print Assumptions C79_accepted_partial.

(** Every ordinal type is accepted.  Missing: subranges of enumerated types with
    more than one value, negative constants, and names in use at an outer level,
    all refuted below. *)
Theorem C79_complete_partial : forall k name d w r t new,
  ordinal (syms d) name w t new -> rest d = w ++ r ->
  Forall fit_sym (syms d) -> ~ In (RId name) w -> (forall v, In (RChr v) w -> 0 <= v <= 255) -> (length w <= k)%nat ->
  exists d', new_simple_type k name (next_from 0 d) = Done (Some (length (syms d))) d' /\
    read d w r (mkS name 0x44 (PType t) :: new) d'.
Proof. exact complete. Qed.
Print Assumptions C79_complete_partial.

Example C79_range_case :
  new_simple_type 10 20 (next_from 0 (before (ex_range ++ [RK tSEMI]))) = Done (Some 11%nat) range_end /\
  derrs range_end = derrs (before []) /\ Forall fit_word (ex_range ++ [RK tSEMI]) /\ Forall fit_sym (syms (before [])) /\
  ordinal some_names 20 ex_range (mkTy 0x55 0x47 0 2 (-5) 10 None None) [] /\ ~ In (RId 20) ex_range /\
  nth_error (syms range_end) 11 = Some (mkS 20 0x44 (PType (mkTy 0x55 0x47 0 2 (-5) 10 None None))).
Proof. exact range_case. Qed.
Example C79_enum_case :
  ordinal some_names 20 ex_enum (mkTy 0x53 0 0 2 0 2 None None) (numbered 11 0 [30; 31; 32]) /\
  new_simple_type 10 20 (next_from 0 (before (ex_enum ++ [RK tSEMI]))) = Done (Some 11%nat) enum_end /\ derrs enum_end = [] /\
  skipn 11 (syms enum_end) = [mkS 20 0x44 (PType (mkTy 0x53 0 0 2 0 2 None None)); mkS 30 0x54 (PConst 0 (Some 11%nat));
    mkS 31 0x54 (PConst 1 (Some 11%nat)); mkS 32 0x54 (PConst 2 (Some 11%nat))].
Proof. exact enum_case. Qed.

(** Sets of at most 64 elements are accepted, larger ones are not.  Missing: more
    than 32767 elements, refuted below. *)
Theorem C79_set_partial : forall td k name d w r p t new,
  elements (syms d) w p t new -> rest d = RK 0xa0 :: RK 0x98 :: w ++ r ->
  Forall fit_sym (syms d) -> ~ In (RId (-1)) w -> (forall v, In (RChr v) w -> 0 <= v <= 255) -> (length w <= k)%nat ->
  exists q d' s, new_complex_type td k name (next_from 0 d) = Done (Some q) d' /\
    syms d' = syms d ++ new ++ [mkS name 0x44 (PType s)] /\ q = length (syms d ++ new) /\
    (forall y r', r = RK y :: r' -> gTok d' = y /\ rest d' = r') /\
    let c := tMax t - tMin t + 1 in
    (-32768 <= c <= 64 -> derrs d' = derrs d /\ s = set_type t p) /\
    (64 < c <= 32767 -> derrs d' = derrs d ++ [0x59]).
Proof. exact set_ok. Qed.
Print Assumptions C79_set_partial.

Example C79_set_case :
  elements some_names [RId 12] 7 (mkTy sSCALAR 0 0 2 0 2 None None) [] /\
  elements some_names [RInt 1; RK 0x0b; RInt 100] 11 (mkTy 0x55 0x47 0 2 1 100 None None)
    [mkS (-1) 0x44 (PType (mkTy 0x55 0x47 0 2 1 100 None None))] /\
  derrs (done (new_complex_type ub 10 20 (next_from 0 (before [RK 0xa0; RK 0x98; RId 12; RK tSEMI]))) d0) = [] /\
  derrs (done (new_complex_type ub 10 20 (next_from 0 (before [RK 0xa0; RK 0x98; RInt 1; RK 0x0b; RInt 100; RK tSEMI]))) d0) = [0x59].
Proof. exact set_case. Qed.

Theorem C79_overflow_refuted : forall l lo hi, In (l, lo, hi)
  [([RInt 40000; RK 0x0b; RInt 50000; RK tSEMI], -25536, -15536);
   ([RK 0x2d; RInt 65535; RK 0x0b; RInt 2; RK tSEMI], 1, 2);
   ([RInt 65535; RK 0x0b; RInt 2; RK tSEMI], -1, 2)] -> outcome l = Some ([], Some (lo, hi)).
Proof. exact overflow_refuted. Qed.
Print Assumptions C79_overflow_refuted.

Theorem C79_scalar_refuted : exists e o, outcome [RId 13; RK 0x0b; RId 15; RK tSEMI] = Some (e, o) /\ e = [0x57].
Proof. exact scalar_refuted. Qed.
Print Assumptions C79_scalar_refuted.

Theorem C79_outer_refuted : exists p d, gLevel (before []) = length some_names /\
  new_simple_type 50 20 (next_from 0 (before [RK 0x28; RId 13; RK 0x2c; RId 30; RK 0x29; RK tSEMI])) = Done (Some p) d /\
  derrs d <> [].
Proof. exact outer_refuted. Qed.
Print Assumptions C79_outer_refuted.

Theorem C79_negative_refuted : exists m p d, nth_error m 5 = Some (mkS 16 0x02 (PConst (-5) None)) /\
  new_simple_type 50 20 (next_from 0 (mkD 0 None 0 0 [RId 16; RK 0x0b; RInt 5; RK tSEMI] m 6 4 0 0 [] [])) = Done (Some p) d /\
  derrs d <> [].
Proof. exact negative_refuted. Qed.
Print Assumptions C79_negative_refuted.

Theorem C79_set_refuted : exists p d s t,
  new_complex_type ub 10 20 (next_from 0 (before [RK 0xa0; RK 0x98; RK 0x2d; RInt 20000; RK 0x0b; RInt 20000; RK tSEMI])) = Done (Some p) d /\
  derrs d = [] /\ nth_error (syms d) p = Some s /\ sParm s = PType t /\ tSize t = 8 /\ tMax t - tMin t = 40000.
Proof. exact set_refuted. Qed.
Print Assumptions C79_set_refuted.
