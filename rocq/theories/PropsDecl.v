(** Properties of declarations. *)

From Coq Require Import ZArith Bool List Lia.
From Verif Require Import Words ExprModel DeclModel DeclSpec DeclVars DeclParms DeclLayout DeclCases.
Import ListNotations.
Open Scope Z_scope.

(** ** C76 Storage of variables *)

(** Missing: alignment of file variables, and more than 64K of variables; both
    are refuted below. *)
Theorem C76_storage_partial : forall n d d',
  var_group n d = Done tt d' -> types_marked (syms d) -> types_fit (syms d') ->
  0 <= gStack d -> gStack d' < 65536 ->
  exists m, syms d' = syms d ++ m /\ all_apart (variables m) /\
    Forall (within (gStack d) (gStack d')) (variables m) /\
    Forall (as_declared (syms d')) (variables m).
Proof. exact storage. Qed.
Print Assumptions C76_storage_partial.

Example C76_case :
  var_group 50 (at_start standard ex_vars) = Done tt ex_vars_end /\
  types_marked (syms (at_start standard ex_vars)) /\ types_fit (syms ex_vars_end) /\
  gStack (at_start standard ex_vars) = 4 /\ gStack ex_vars_end = 13 /\ derrs ex_vars_end = [] /\
  map (fun s => (sName s, start s, extent s)) (variables (syms ex_vars_end)) =
    [(20, 4, 2); (22, 6, 1); (21, 7, 1); (23, 8, 3); (24, 11, 2)].
Proof. exact vars_case. Qed.

Theorem C76_file_refuted : exists l d s, var_group 50 (at_start standard l) = Done tt d /\ derrs d = [] /\
  l = [RId 20; RK tCOLON; RId 2; RK tSEMI; RId 21; RK tCOLON; RId 4; RK tSEMI] /\
  In s (variables (syms d)) /\ sName s = 21 /\ extent s = 2 /\ start s = 5.
Proof. exact file_refuted. Qed.
Print Assumptions C76_file_refuted.

Theorem C76_wrap_refuted : exists l d s1 s2, var_group 50 (at_start standard l) = Done tt d /\ derrs d = [] /\
  l = RId 20 :: RK tCOLON :: big_array ++ RK tSEMI :: RId 21 :: RK tCOLON :: big_array ++
      RK tSEMI :: RId 22 :: RK tCOLON :: RId 1 :: [RK tSEMI] /\
  types_fit (syms d) /\ In s1 (variables (syms d)) /\ In s2 (variables (syms d)) /\
  sName s1 = 20 /\ sName s2 = 22 /\ ~ apart s1 s2.
Proof. exact wrap_refuted. Qed.
Print Assumptions C76_wrap_refuted.

(** ** C77 Layout of types *)

(** The type of a variable.  Missing: enumerated types and names of constants as
    bounds, fields declared together, and arrays of arrays, of pointers or of more
    than 65535 elements, which are refuted below. *)
Theorem C77_layout_partial : forall E t n y r d,
  describes E (syms d) -> fine E t -> (length (written t) <= n)%nat -> y <> tLBRACK ->
  rest d = written t ++ RK y :: r ->
  exists p d', type_denoter n (-1) (next_from 0 d) = Done p d' /\
    gTok d' = y /\ rest d' = r /\ derrs d' = derrs d /\ gStack d' = gStack d /\ gVarSize d' = sizeof E t /\
    (exists l, syms d' = syms d ++ l) /\ describes E (syms d') /\
    shaped E (syms d') (length (syms d)) (length (syms d')) p t.
Proof. exact layout. Qed.
Print Assumptions C77_layout_partial.

Example C77_layout_case :
  describes std_names (syms ex_layout_start) /\ fine std_names ex_layout /\ sizeof std_names ex_layout = 54 /\
  (length (written ex_layout) <= 100)%nat /\ rest ex_layout_start = written ex_layout ++ [RK tSEMI].
Proof. exact layout_case. Qed.

(** Type definitions, any number of them; missing: the same, and pointers to types
    defined later. *)
Theorem C77_definitions_partial : forall E defs n k y r d,
  describes E (syms d) -> fine_defs E defs -> defs <> [] -> y <> tIDENT ->
  (length (w_defs defs) <= n)%nat -> rest d = w_defs defs ++ RK y :: r -> fwd d = [] ->
  exists d', type_group n (next_from k d) = Done tt d' /\
    gTok d' = y /\ rest d' = r /\ derrs d' = derrs d /\ gStack d' = gStack d /\ (exists l, syms d' = syms d ++ l) /\
    describes (names_after E defs) (syms d') /\ defined E (syms d') (length (syms d)) (length (syms d')) defs.
Proof. exact definitions. Qed.
Print Assumptions C77_definitions_partial.

Example C77_definitions_case :
  describes std_names (syms ex_defs_start) /\ fine_defs std_names ex_defs /\ ex_defs <> [] /\ tVAR <> tIDENT /\
  (length (w_defs ex_defs) <= 100)%nat /\ rest ex_defs_start = w_defs ex_defs ++ [RK tVAR] /\ fwd ex_defs_start = [] /\
  map (names_after std_names ex_defs) [20; 21; 22; 23; 24; 25] =
    [EType 40 false; EType 54 true; EType 270 false; EType 2 false; EType 2 false; EType 1 true].
Proof. exact defs_case. Qed.

(** What C77_layout_partial says of a record: its fields are apart, inside, and
    aligned. *)
Theorem C77_fields : forall E fs l b c p,
  describes E l -> fine E (TRecord fs) -> shaped E l b c p (TRecord fs) ->
  exists s r gs, nth_error l p = Some s /\ sParm s = PType r /\ tType r = 0x58 /\ chain l (Some (S p)) gs /\
    Z.of_nat (length gs) = tMax r /\ all_fields_apart gs /\
    Forall (fun g => 0 <= rOff g /\ rOff g + rSize g <= tSize r /\ (Z.even (rOff g) = true \/ rSize g = 1)) gs.
Proof. exact record_fields. Qed.
Print Assumptions C77_fields.

Example C77_fields_case : exists d', type_denoter 100 (-1) (next_from 0 ex_layout_start) = Done 5%nat d' /\
  describes std_names (syms d') /\ shaped std_names (syms d') 5 (length (syms d')) 5 ex_layout /\
  offsets (syms d') = [(30, 0, 1); (31, 2, 2); (32, 4, 40); (33, 44, 8); (34, 52, 2)].
Proof. exact fields_case. Qed.

Theorem C77_section_refuted : exists l d s1 s2 f1 f2, type_denoter 50 (-1) (at_start standard l) = Done 5%nat d /\ derrs d = [] /\
  l = [RK tRECORD; RId 20; RK tCOMMA; RId 21; RK tCOLON; RId 1; RK tSEMI; RId 22; RK tCOLON; RId 2; RK tEND; RK tSEMI] /\
  In s1 (syms d) /\ In s2 (syms d) /\ sName s1 = 20 /\ sName s2 = 21 /\ sParm s1 = PField f1 /\ sParm s2 = PField f2 /\
  ~ fields_apart f1 f2 /\ offsets (syms d) = [(20, 0, 2); (21, 0, 2); (22, 2, 1)] /\ gVarSize d = 3.
Proof. exact section_refuted. Qed.
Print Assumptions C77_section_refuted.

Theorem C77_arrays_refuted : forall l z, In (l, z) [(nested, 6); (pointers, 3); (long_array, 1)] ->
  exists p d s t, type_denoter 50 (-1) (at_start standard l) = Done p d /\ derrs d = [] /\
    nth_error (syms d) p = Some s /\ sParm s = PType t /\ tType t = sARRAY /\ tSize t = z.
Proof. exact arrays_refuted. Qed.
Print Assumptions C77_arrays_refuted.

(** ** C80 Formal parameters *)

(** Missing: more than 32K of parameters, refuted below. *)
Theorem C80_parameters_partial : forall n pp d off d',
  formal_parameters n pp d = Done off d' -> length (syms d) = S pp ->
  exists m, syms d' = syms d ++ m /\
  (types_fit (syms d') -> total m <= 32768 ->
   off = - total m /\ all_apart m /\ Forall (within off 0) m /\
   Forall (fun s => Z.even (start s) = true) m /\ Forall (as_parameter (syms d')) m).
Proof. exact parameters. Qed.
Print Assumptions C80_parameters_partial.

Example C80_case :
  formal_parameters 50 5 (at_start ex_proc ex_parms) = Done (-8) ex_parms_end /\
  length (syms (at_start ex_proc ex_parms)) = 6%nat /\ types_fit (syms ex_parms_end) /\ derrs ex_parms_end = [] /\
  map (fun s => (sName s, start s, extent s)) (variables (syms ex_parms_end)) =
    [(20, -8, 2); (21, -6, 2); (22, -4, 2); (23, -2, 1)].
Proof. exact parms_case. Qed.

Theorem C80_wrap_refuted : exists l0 l off d s1 s2, formal_parameters 50 6 (at_start l0 l) = Done off d /\ derrs d = [] /\
  l0 = standard ++ [predefined 6 sARRAY 30000; mkS 10 0x4c POther] /\
  l = [RK tLPAREN; RId 20; RK tCOMMA; RId 21; RK tCOMMA; RId 22; RK tCOLON; RId 6; RK tRPAREN] /\
  In s1 (variables (syms d)) /\ In s2 (variables (syms d)) /\ sName s1 = 20 /\ sName s2 = 22 /\ ~ apart s1 s2.
Proof. exact parms_refuted. Qed.
Print Assumptions C80_wrap_refuted.
