(** Declarations: examples, and cases where the code is wrong. *)

From Coq Require Import ZArith Bool List Lia ZifyBool.
From Verif Require Import Words ExprModel DeclModel DeclSpec DeclLayout.
Import ListNotations.
Open Scope Z_scope.

(** Predefined types, by their numbers: 1 integer, 2 char, 3 real, 4 text, 5 boolean *)
Definition predefined (n t size : Z) : sym := mkS n sTYPE (PType (mkTy t 0 0 size 0 0 None None)).
Definition standard : list sym :=
  [predefined 1 sINT 2; predefined 2 sCHAR 1; predefined 3 0x4f 8; predefined 4 sTEXTFILE 2;
   mkS 5 sTYPE (PType (mkTy sBOOLEAN 0 0 2 (-1) 0 None None))].

(** The compiler at the beginning of [l], with [l0] in the table *)
Definition at_start (l0 : list sym) (l : list raw) : ds :=
  next_from (length l0) (mkD 0 None 0 0 l l0 (length l0) 4 0 0 [] []).

Definition done {A} (o : out A) (dflt : ds) : ds := match o with Done _ d => d | _ => dflt end.
Definition d0 : ds := at_start [] [].

Definition fit_b (l : list sym) : bool :=
  forallb (fun s => match sParm s with PType t => (0 <=? tSize t) && (tSize t <? 65536) | _ => true end) l.
Lemma fit_b_ok l : fit_b l = true -> types_fit l.
Proof.
  intros H s t I E. unfold fit_b in H. rewrite forallb_forall in H. specialize (H s I). rewrite E in H. lia.
Qed.
Definition marked_b (l : list sym) : bool :=
  forallb (fun s => match sParm s with PType t => sKind s =? 0x44 | _ => true end) l.
Lemma marked_b_ok l : marked_b l = true -> types_marked l.
Proof.
  intros H s t I E. unfold marked_b in H. rewrite forallb_forall in H. specialize (H s I). rewrite E in H. lia.
Qed.

(** ** Variables *)

(** a : integer; b, c : char; d : record x : integer; z : char end; e : text *)
Definition ex_vars : list raw :=
  [RId 20; RK tCOLON; RId 1; RK tSEMI; RId 21; RK tCOMMA; RId 22; RK tCOLON; RId 2; RK tSEMI;
   RId 23; RK tCOLON; RK tRECORD; RId 30; RK tCOLON; RId 1; RK tSEMI; RId 32; RK tCOLON; RId 2; RK tEND;
   RK tSEMI; RId 24; RK tCOLON; RId 4; RK tSEMI; RK tVAR].
Definition ex_vars_end : ds := done (var_group 50 (at_start standard ex_vars)) d0.

Lemma vars_case :
  var_group 50 (at_start standard ex_vars) = Done tt ex_vars_end /\
  types_marked (syms (at_start standard ex_vars)) /\ types_fit (syms ex_vars_end) /\
  gStack (at_start standard ex_vars) = 4 /\ gStack ex_vars_end = 13 /\ derrs ex_vars_end = [] /\
  map (fun s => (sName s, start s, extent s)) (variables (syms ex_vars_end)) =
    [(20, 4, 2); (22, 6, 1); (21, 7, 1); (23, 8, 3); (24, 11, 2)].
Proof.
  split; [vm_compute; reflexivity|]. split; [apply marked_b_ok; vm_compute; reflexivity|].
  split; [apply fit_b_ok; vm_compute; reflexivity|].
  repeat match goal with |- _ /\ _ => split end; vm_compute; reflexivity.
Qed.

(** a : char; f : text: the number of the file begins at an odd address. *)
Lemma file_refuted : exists l d s, var_group 50 (at_start standard l) = Done tt d /\ derrs d = [] /\
  l = [RId 20; RK tCOLON; RId 2; RK tSEMI; RId 21; RK tCOLON; RId 4; RK tSEMI] /\
  In s (variables (syms d)) /\ sName s = 21 /\ extent s = 2 /\ start s = 5.
Proof.
  exists [RId 20; RK tCOLON; RId 2; RK tSEMI; RId 21; RK tCOLON; RId 4; RK tSEMI].
  eexists _, _. split; [vm_compute; reflexivity|]. split; [reflexivity|]. split; [reflexivity|].
  split; [vm_compute; right; left; reflexivity|]. vm_compute. auto.
Qed.

(** array [0 .. 40000] of char *)
Definition big_array : list raw :=
  [RK tARRAY; RK tLBRACK; RInt 0; RK tSUBRANGE; RInt 40000; RK tRBRACK; RK tOF; RId 2].

(** Two of them, and an integer: the offset wraps around. *)
Lemma wrap_refuted : exists l d s1 s2, var_group 50 (at_start standard l) = Done tt d /\ derrs d = [] /\
  l = RId 20 :: RK tCOLON :: big_array ++ RK tSEMI :: RId 21 :: RK tCOLON :: big_array ++
      RK tSEMI :: RId 22 :: RK tCOLON :: RId 1 :: [RK tSEMI] /\
  types_fit (syms d) /\ In s1 (variables (syms d)) /\ In s2 (variables (syms d)) /\
  sName s1 = 20 /\ sName s2 = 22 /\ ~ apart s1 s2.
Proof.
  exists (RId 20 :: RK tCOLON :: big_array ++ RK tSEMI :: RId 21 :: RK tCOLON :: big_array ++
          RK tSEMI :: RId 22 :: RK tCOLON :: RId 1 :: [RK tSEMI]).
  eexists _, _, _. split; [vm_compute; reflexivity|]. split; [reflexivity|]. split; [reflexivity|].
  split; [apply fit_b_ok; vm_compute; reflexivity|].
  split; [vm_compute; left; reflexivity|]. split; [vm_compute; right; right; left; reflexivity|].
  split; [reflexivity|]. split; [reflexivity|].
  intros H. apply (H 14472). split; split; vm_compute; congruence.
Qed.

(** ** Parameters *)

(** (a : integer; var b, c : real; d : char) behind the symbol of the procedure *)
Definition ex_parms : list raw :=
  [RK tLPAREN; RId 20; RK tCOLON; RId 1; RK tSEMI; RK tVAR; RId 21; RK tCOMMA; RId 22; RK tCOLON; RId 3;
   RK tSEMI; RId 23; RK tCOLON; RId 2; RK tRPAREN; RK tSEMI].
Definition ex_proc : list sym := standard ++ [mkS 10 0x4c POther].
Definition ex_parms_end : ds := done (formal_parameters 50 5 (at_start ex_proc ex_parms)) d0.

Lemma parms_case :
  formal_parameters 50 5 (at_start ex_proc ex_parms) = Done (-8) ex_parms_end /\
  length (syms (at_start ex_proc ex_parms)) = 6%nat /\ types_fit (syms ex_parms_end) /\ derrs ex_parms_end = [] /\
  map (fun s => (sName s, start s, extent s)) (variables (syms ex_parms_end)) =
    [(20, -8, 2); (21, -6, 2); (22, -4, 2); (23, -2, 1)].
Proof.
  split; [vm_compute; reflexivity|]. split; [vm_compute; reflexivity|].
  split; [apply fit_b_ok; vm_compute; reflexivity|]. split; vm_compute; reflexivity.
Qed.

(** Three parameters of 30000 bytes: the offset, an int16_t, wraps around. *)
Lemma parms_refuted : exists l0 l off d s1 s2, formal_parameters 50 6 (at_start l0 l) = Done off d /\ derrs d = [] /\
  l0 = standard ++ [predefined 6 sARRAY 30000; mkS 10 0x4c POther] /\
  l = [RK tLPAREN; RId 20; RK tCOMMA; RId 21; RK tCOMMA; RId 22; RK tCOLON; RId 6; RK tRPAREN] /\
  In s1 (variables (syms d)) /\ In s2 (variables (syms d)) /\ sName s1 = 20 /\ sName s2 = 22 /\ ~ apart s1 s2.
Proof.
  exists (standard ++ [predefined 6 sARRAY 30000; mkS 10 0x4c POther]).
  exists [RK tLPAREN; RId 20; RK tCOMMA; RId 21; RK tCOMMA; RId 22; RK tCOLON; RId 6; RK tRPAREN].
  eexists _, _, _, _. split; [vm_compute; reflexivity|]. split; [reflexivity|]. split; [reflexivity|].
  split; [reflexivity|]. split; [vm_compute; left; reflexivity|]. split; [vm_compute; right; right; left; reflexivity|].
  split; [reflexivity|]. split; [reflexivity|].
  intros H. apply (H (-20000)). split; split; vm_compute; congruence.
Qed.

(** ** Types *)

(** The names of [standard]; 20 to 99 are not in use. *)
Definition std_names : names := fun n =>
  if n =? 1 then EType 2 true else if n =? 2 then EType 1 true else if n =? 3 then EType 8 true
  else if n =? 5 then EType 2 true else if (20 <=? n) && (n <? 100) then EFree else EOther.

Lemma std_describes : describes std_names standard.
Proof.
  assert (LA : forall p s n, nth_error standard p = Some s -> sName s = n -> latest standard n p s).
  { intros p s n N <-. split; [exact N|]. split; [reflexivity|]. split.
    - do 5 (destruct p as [|p]; [cbn in N; inversion N; cbn; discriminate|]). destruct p; discriminate.
    - intros j s' Hj Nj Ns. exfalso.
      do 5 (destruct p as [|p]; [cbn in N; inversion N; subst s; do 5 (destruct j as [|j]; [cbn in Nj; inversion Nj; subst s'; cbn in Ns; lia|]); destruct j; discriminate|]).
      destruct p; discriminate. }
  intros n. unfold std_names.
  destruct (n =? 1) eqn:E1; [apply Z.eqb_eq in E1; subst n; split; [lia|]; split; [lia|]; eexists 0%nat, _, _; split; [apply LA; [reflexivity|reflexivity]|cbn; auto 6]|].
  destruct (n =? 2) eqn:E2; [apply Z.eqb_eq in E2; subst n; split; [lia|]; split; [lia|]; eexists 1%nat, _, _; split; [apply LA; [reflexivity|reflexivity]|cbn; auto 6]|].
  destruct (n =? 3) eqn:E3; [apply Z.eqb_eq in E3; subst n; split; [lia|]; split; [lia|]; eexists 2%nat, _, _; split; [apply LA; [reflexivity|reflexivity]|cbn; auto 6]|].
  destruct (n =? 5) eqn:E5; [apply Z.eqb_eq in E5; subst n; split; [lia|]; split; [lia|]; eexists 4%nat, _, _; split; [apply LA; [reflexivity|reflexivity]|cbn; auto 6]|].
  destruct ((20 <=? n) && (n <? 100)) eqn:Ef; [|exact I]. split; [lia|]. intros j s Nj Ns. exfalso.
  do 5 (destruct j as [|j]; [cbn in Nj; inversion Nj; subst s; cbn in Ns; lia|]). destruct j; discriminate.
Qed.

(** t = array [1..10, 0..3] of char;
    r = record a : char; b : integer; c : t; d : set of 0..9; e : ^t end;
    s = array [0..4] of r;  p = ^s;  q = p;  z = 'a'..'z' *)
Definition ex_record : ty :=
  TRecord (FMore 30 (TName 2) (FMore 31 (TName 1) (FMore 32 (TName 20) (FMore 33 (TSet 0 9) (FLast 34 (TPointer 20)))))).
Definition ex_defs : list (Z * ty) :=
  [(20, TArray 1 10 [(0, 3)] (TName 2)); (21, ex_record); (22, TArray 0 4 [] (TName 21)); (23, TPointer 22);
   (24, TName 23); (25, TChars 97 122)].

Definition ex_defs_start : ds := mkD 0 None 0 0 (w_defs ex_defs ++ [RK tVAR]) standard 5 4 0 0 [] [].

Lemma defs_case :
  describes std_names (syms ex_defs_start) /\ fine_defs std_names ex_defs /\ ex_defs <> [] /\ tVAR <> tIDENT /\
  (length (w_defs ex_defs) <= 100)%nat /\ rest ex_defs_start = w_defs ex_defs ++ [RK tVAR] /\ fwd ex_defs_start = [] /\
  map (names_after std_names ex_defs) [20; 21; 22; 23; 24; 25] =
    [EType 40 false; EType 54 true; EType 270 false; EType 2 false; EType 2 false; EType 1 true].
Proof.
  split; [exact std_describes|]. split.
  { cbn. repeat match goal with
      | |- _ /\ _ => split
      | |- exists z f, EType ?a ?b = EType z f => exists a, b; reflexivity
      | |- Forall _ _ => repeat constructor; unfold in_range; cbn; lia
      | |- True => exact I
      | |- _ => first [reflexivity | lia | discriminate]
      end. }
  split; [discriminate|]. split; [discriminate|]. split; [vm_compute; lia|].
  split; [reflexivity|]. split; vm_compute; reflexivity.
Qed.

(** a : char; b : integer; c : array [1..10, 0..3] of char; d : set of 0..9; e : ^real *)
Definition ex_layout : ty :=
  TRecord (FMore 30 (TName 2) (FMore 31 (TName 1) (FMore 32 (TArray 1 10 [(0, 3)] (TName 2))
    (FMore 33 (TSet 0 9) (FLast 34 (TPointer 3)))))).
Definition ex_layout_start : ds := mkD 0 None 0 0 (written ex_layout ++ [RK tSEMI]) standard 5 4 0 0 [] [].

Lemma layout_case :
  describes std_names (syms ex_layout_start) /\ fine std_names ex_layout /\ sizeof std_names ex_layout = 54 /\
  (length (written ex_layout) <= 100)%nat /\ rest ex_layout_start = written ex_layout ++ [RK tSEMI].
Proof.
  split; [exact std_describes|]. split.
  { cbn. repeat match goal with
      | |- _ /\ _ => split
      | |- exists z f, EType ?a ?b = EType z f => exists a, b; reflexivity
      | |- Forall _ _ => repeat constructor; unfold in_range; cbn; lia
      | |- _ => first [reflexivity | lia | discriminate]
      end. }
  split; [vm_compute; reflexivity|]. split; [vm_compute; lia|]. reflexivity.
Qed.

(** The offsets and sizes of the fields of a table, by name *)
Definition offsets (l : list sym) : list (Z * Z * Z) :=
  flat_map (fun s => match sParm s with PField f => [(sName s, rOff f, rSize f)] | _ => [] end) l.

(** record a, b : integer; c : char end: a and b share their bytes. *)
Lemma section_refuted : exists l d s1 s2 f1 f2, type_denoter 50 (-1) (at_start standard l) = Done 5%nat d /\ derrs d = [] /\
  l = [RK tRECORD; RId 20; RK tCOMMA; RId 21; RK tCOLON; RId 1; RK tSEMI; RId 22; RK tCOLON; RId 2; RK tEND; RK tSEMI] /\
  In s1 (syms d) /\ In s2 (syms d) /\ sName s1 = 20 /\ sName s2 = 21 /\ sParm s1 = PField f1 /\ sParm s2 = PField f2 /\
  ~ fields_apart f1 f2 /\ offsets (syms d) = [(20, 0, 2); (21, 0, 2); (22, 2, 1)] /\ gVarSize d = 3.
Proof.
  exists [RK tRECORD; RId 20; RK tCOMMA; RId 21; RK tCOLON; RId 1; RK tSEMI; RId 22; RK tCOLON; RId 2; RK tEND; RK tSEMI].
  eexists _, _, _, _, _. split; [vm_compute; reflexivity|]. split; [reflexivity|]. split; [reflexivity|].
  split; [do 6 right; left; reflexivity|]. split; [do 7 right; left; reflexivity|].
  split; [reflexivity|]. split; [reflexivity|]. split; [reflexivity|]. split; [reflexivity|].
  split; [|split; reflexivity].
  intros H. apply (H 0). cbn. lia.
Qed.

(** array [0..2] of array [0..3] of integer *)
Definition nested : list raw :=
  [RK tARRAY; RK tLBRACK; RInt 0; RK tSUBRANGE; RInt 2; RK tRBRACK; RK tOF;
   RK tARRAY; RK tLBRACK; RInt 0; RK tSUBRANGE; RInt 3; RK tRBRACK; RK tOF; RId 1; RK tSEMI].
(** array [0..2] of ^char *)
Definition pointers : list raw :=
  [RK tARRAY; RK tLBRACK; RInt 0; RK tSUBRANGE; RInt 2; RK tRBRACK; RK tOF; RK tCARET; RId 2; RK tSEMI].
(** array [0..65536] of char *)
Definition long_array : list raw :=
  [RK tARRAY; RK tLBRACK; RInt 0; RK tSUBRANGE; RInt 65536; RK tRBRACK; RK tOF; RId 2; RK tSEMI].

Lemma arrays_refuted : forall l z, In (l, z) [(nested, 6); (pointers, 3); (long_array, 1)] ->
  exists p d s t, type_denoter 50 (-1) (at_start standard l) = Done p d /\ derrs d = [] /\
    nth_error (syms d) p = Some s /\ sParm s = PType t /\ tType t = sARRAY /\ tSize t = z.
Proof.
  intros l z [H|[H|[H|[]]]]; inversion H; subst l z; exists 5%nat; eexists _, _, _;
    (split; [vm_compute; reflexivity|]); (split; [reflexivity|]); (split; [reflexivity|]); (split; [reflexivity|]); split; reflexivity.
Qed.

Lemma fields_case : exists d', type_denoter 100 (-1) (next_from 0 ex_layout_start) = Done 5%nat d' /\
  describes std_names (syms d') /\ shaped std_names (syms d') 5 (length (syms d')) 5 ex_layout /\
  offsets (syms d') = [(30, 0, 1); (31, 2, 2); (32, 4, 40); (33, 44, 8); (34, 52, 2)].
Proof.
  destruct layout_case as (D & F & _ & L & R).
  destruct (layout std_names ex_layout 100 tSEMI [] ex_layout_start D F L ltac:(discriminate) R)
    as (p & d' & e & _ & _ & _ & _ & _ & _ & D' & Sh).
  assert (C : match type_denoter 100 (-1) (next_from 0 ex_layout_start) with
              | Done p d => (p, offsets (syms d)) = (5%nat, [(30, 0, 1); (31, 2, 2); (32, 4, 40); (33, 44, 8); (34, 52, 2)])
              | _ => False
              end) by (vm_compute; reflexivity).
  rewrite e in C. inversion C as [[C1 C2]]. subst p. exists d'. rewrite C2. auto.
Qed.
