(** Enumerated types, subranges and sets: examples, and cases where the code is
    wrong. *)

From Coq Require Import ZArith Bool List Lia ZifyBool.
From Verif Require Import Words ExprModel DeclModel DeclSpec DeclCases RangeSpec RangeProofs.
Import ListNotations.
Open Scope Z_scope.

(** const ten = 10; mid = 'm'; type color = (red, green, blue) *)
Definition some_names : list sym :=
  standard ++ [mkS 10 0x02 (PConst 10 None); mkS 11 0x03 (PConst 109 None);
    mkS 12 sTYPE (PType (mkTy sSCALAR 0 0 2 0 2 None None)); mkS 13 0x54 (PConst 0 (Some 7%nat));
    mkS 14 0x54 (PConst 1 (Some 7%nat)); mkS 15 0x54 (PConst 2 (Some 7%nat))].
Definition before (l : list raw) : ds := mkD 0 None 0 0 l some_names 11 4 0 0 [] [].

Lemma some_fit : Forall fit_sym some_names.
Proof.
  unfold some_names, standard, predefined. cbn [app].
  repeat (apply Forall_cons; [split; cbn; unfold sTYPE; lia|]). apply Forall_nil.
Qed.
Lemma ten_latest : latest some_names 10 5 (mkS 10 0x02 (PConst 10 None)).
Proof.
  split; [reflexivity|]. split; [reflexivity|]. split; [cbn; lia|]. intros j s Hj N E. exfalso.
  do 11 (destruct j as [|j]; [first [lia|cbn in N; inversion N; subst s; cbn in E; lia]|]). destruct j; discriminate.
Qed.

(** -5 .. ten *)
Definition ex_range : list raw := [RK 0x2d; RInt 5; RK 0x0b; RId 10].
Lemma range_ordinal : ordinal some_names 20 ex_range (mkTy 0x55 0x47 0 2 (-5) 10 None None) [].
Proof.
  apply (o_int some_names 20 [RK 0x2d; RInt 5] [RId 10] (-5) 10).
  - apply (b_minus some_names (RInt 5) 5); [constructor|lia].
  - constructor; [|lia]. eapply c_name; [exact ten_latest|reflexivity|reflexivity].
  - lia.
Qed.
Definition range_end : ds := done (new_simple_type 10 20 (next_from 0 (before (ex_range ++ [RK tSEMI])))) d0.
Lemma range_case :
  new_simple_type 10 20 (next_from 0 (before (ex_range ++ [RK tSEMI]))) = Done (Some 11%nat) range_end /\
  derrs range_end = derrs (before []) /\ Forall fit_word (ex_range ++ [RK tSEMI]) /\ Forall fit_sym (syms (before [])) /\
  ordinal some_names 20 ex_range (mkTy 0x55 0x47 0 2 (-5) 10 None None) [] /\ ~ In (RId 20) ex_range /\
  nth_error (syms range_end) 11 = Some (mkS 20 0x44 (PType (mkTy 0x55 0x47 0 2 (-5) 10 None None))).
Proof.
  split; [vm_compute; reflexivity|]. split; [vm_compute; reflexivity|]. split; [|split; [exact some_fit|split; [exact range_ordinal|split]]].
  - unfold ex_range. cbn [app]. do 5 (constructor; [cbn; unfold tSEMI; lia|]). constructor.
  - cbn. intuition congruence.
  - vm_compute. reflexivity.
Qed.

(** (a, b, c) *)
Definition ex_enum : list raw := RK 0x28 :: commas [30; 31; 32] ++ [RK 0x29].
Definition enum_end : ds := done (new_simple_type 10 20 (next_from 0 (before (ex_enum ++ [RK tSEMI])))) d0.
Lemma enum_ordinal : ordinal some_names 20 ex_enum (mkTy 0x53 0 0 2 0 2 None None) (numbered 11 0 [30; 31; 32]).
Proof.
  apply (o_enum some_names 20 [30; 31; 32]); [discriminate| |].
  - repeat (constructor; [cbn; intuition lia|]). constructor.
  - intros n I. split; [|cbn in I; lia]. intros j s N E. exfalso. cbn in I.
    do 11 (destruct j as [|j]; [cbn in N; inversion N; subst s; cbn in E; lia|]). destruct j; discriminate.
Qed.
Lemma enum_case :
  ordinal some_names 20 ex_enum (mkTy 0x53 0 0 2 0 2 None None) (numbered 11 0 [30; 31; 32]) /\
  new_simple_type 10 20 (next_from 0 (before (ex_enum ++ [RK tSEMI]))) = Done (Some 11%nat) enum_end /\ derrs enum_end = [] /\
  skipn 11 (syms enum_end) = [mkS 20 0x44 (PType (mkTy 0x53 0 0 2 0 2 None None)); mkS 30 0x54 (PConst 0 (Some 11%nat));
    mkS 31 0x54 (PConst 1 (Some 11%nat)); mkS 32 0x54 (PConst 2 (Some 11%nat))].
Proof. split; [exact enum_ordinal|]. split; [vm_compute; reflexivity|]. split; vm_compute; reflexivity. Qed.

(** ** Sets *)

(** set of color; set of 1 .. 100 *)
Lemma color_latest : latest some_names 12 7 (mkS 12 sTYPE (PType (mkTy sSCALAR 0 0 2 0 2 None None))).
Proof.
  split; [reflexivity|]. split; [reflexivity|]. split; [cbn; unfold sTYPE; lia|]. intros j s Hj N E. exfalso.
  do 11 (destruct j as [|j]; [first [lia|cbn in N; inversion N; subst s; cbn in E; lia]|]). destruct j; discriminate.
Qed.
Lemma set_case :
  elements some_names [RId 12] 7 (mkTy sSCALAR 0 0 2 0 2 None None) [] /\
  elements some_names [RInt 1; RK 0x0b; RInt 100] 11 (mkTy 0x55 0x47 0 2 1 100 None None)
    [mkS (-1) 0x44 (PType (mkTy 0x55 0x47 0 2 1 100 None None))] /\
  derrs (done (new_complex_type ub 10 20 (next_from 0 (before [RK 0xa0; RK 0x98; RId 12; RK tSEMI]))) d0) = [] /\
  derrs (done (new_complex_type ub 10 20 (next_from 0 (before [RK 0xa0; RK 0x98; RInt 1; RK 0x0b; RInt 100; RK tSEMI]))) d0) = [0x59].
Proof.
  split; [eapply e_name; [exact color_latest|reflexivity|reflexivity|left; reflexivity]|]. split.
  - apply (e_new some_names _ (mkTy 0x55 0x47 0 2 1 100 None None) []).
    apply (o_int some_names (-1) [RInt 1] [RInt 100] 1 100); [constructor; [constructor|lia]|constructor; [constructor|lia]|lia].
  - split; vm_compute; reflexivity.
Qed.

(** ** Wrong *)

(** The words, whether they are accepted, the bounds of the type *)
Definition outcome (l : list raw) : option (list Z * option (Z * Z)) :=
  match new_simple_type 50 20 (next_from 0 (before l)) with
  | Done (Some p) d =>
      Some (derrs d, match nth_error (syms d) p with Some (mkS _ _ (PType t)) => Some (tMin t, tMax t) | _ => None end)
  | _ => None
  end.

(** 40000 .. 50000; -65535 .. 2; 65535 .. 2 *)
Lemma overflow_refuted : forall l lo hi, In (l, lo, hi)
  [([RInt 40000; RK 0x0b; RInt 50000; RK tSEMI], -25536, -15536);
   ([RK 0x2d; RInt 65535; RK 0x0b; RInt 2; RK tSEMI], 1, 2);
   ([RInt 65535; RK 0x0b; RInt 2; RK tSEMI], -1, 2)] -> outcome l = Some ([], Some (lo, hi)).
Proof.
  intros l lo hi I. cbn [In] in I. repeat (destruct I as [I|I]; [inversion I; vm_compute; reflexivity|]). destruct I.
Qed.

(** red .. blue, three constants of one type in the right order *)
Lemma scalar_refuted : exists e o, outcome [RId 13; RK 0x0b; RId 15; RK tSEMI] = Some (e, o) /\ e = [0x57].
Proof. eexists _, _. split; vm_compute; reflexivity. Qed.

(** (red, white) where red is declared at an outer level *)
Lemma outer_refuted : exists p d, gLevel (before []) = length some_names /\
  new_simple_type 50 20 (next_from 0 (before [RK 0x28; RId 13; RK 0x2c; RId 30; RK 0x29; RK tSEMI])) = Done (Some p) d /\
  derrs d <> [].
Proof. eexists _, _. split; [reflexivity|]. split; [vm_compute; reflexivity|]. vm_compute. discriminate. Qed.

(** const low = -5; low .. 5 *)
Lemma negative_refuted : exists m p d, nth_error m 5 = Some (mkS 16 0x02 (PConst (-5) None)) /\
  new_simple_type 50 20 (next_from 0 (mkD 0 None 0 0 [RId 16; RK 0x0b; RInt 5; RK tSEMI] m 6 4 0 0 [] [])) = Done (Some p) d /\
  derrs d <> [].
Proof.
  exists (standard ++ [mkS 16 0x02 (PConst (-5) None)]), 6%nat. eexists. split; [reflexivity|].
  split; [vm_compute; reflexivity|]. vm_compute. discriminate.
Qed.

(** set of -20000 .. 20000 *)
Lemma set_refuted : exists p d s t,
  new_complex_type ub 10 20 (next_from 0 (before [RK 0xa0; RK 0x98; RK 0x2d; RInt 20000; RK 0x0b; RInt 20000; RK tSEMI])) = Done (Some p) d /\
  derrs d = [] /\ nth_error (syms d) p = Some s /\ sParm s = PType t /\ tSize t = 8 /\ tMax t - tMin t = 40000.
Proof. eexists _, _, _, _. split; [vm_compute; reflexivity|].
  split; [reflexivity|]. split; [vm_compute; reflexivity|]. split; [reflexivity|]. split; reflexivity. Qed.
