(** * Array elements (C78) *)

From Coq Require Import ZArith Bool List.
From Verif Require Import Words State Opcodes EncodeModel Machine VmSpec OptSpec ExprModel ExprSpec ExprLoad ExprCases
  StmtModel StmtSpec StmtCases ArrModel ArrSpec ArrCases.
From Verif Require DeclModel DeclSpec DeclCases.
Import ListNotations.
Open Scope Z_scope.

(** The declaration of an array of a simple type by name makes the entries that
    the other theorems rely on. *)
Theorem C78_declared : forall E lo hi more m n y r d T lev off,
  DeclSpec.describes E (DeclModel.syms d) -> DeclSpec.fine E (DeclSpec.TArray lo hi more (DeclSpec.TName m)) ->
  (length (DeclSpec.written (DeclSpec.TArray lo hi more (DeclSpec.TName m))) <= n)%nat -> y <> tLBRACK ->
  DeclModel.rest d = DeclSpec.written (DeclSpec.TArray lo hi more (DeclSpec.TName m)) ++ DeclModel.RK y :: r ->
  class_of T <> None ->
  exists p d', DeclModel.type_denoter n (-1) (DeclModel.next_from 0 d) = DeclModel.Done p d' /\
    DeclModel.derrs d' = DeclModel.derrs d /\
    forall q s e, DeclSpec.latest (DeclModel.syms d') m q s -> DeclModel.sParm s = DeclModel.PType e ->
      DeclModel.tType e = kind_of T -> DeclModel.tSize e = size_of T ->
      let a := mkArr T lev off ((lo, hi) :: more) in array_at (DeclModel.syms d') p a /\ proper a.
Proof. exact declared. Qed.
Print Assumptions C78_declared.

Example C78_declared_case :
  DeclSpec.describes DeclCases.std_names (DeclModel.syms a_start) /\ DeclSpec.fine DeclCases.std_names a_type /\
  (length (DeclSpec.written a_type) <= 50)%nat /\ DeclModel.rest a_start = DeclSpec.written a_type ++ [DeclModel.RK DeclModel.tSEMI] /\
  DeclModel.type_denoter 50 (-1) (DeclModel.next_from 0 a_start) = DeclModel.Done 5%nat a_end /\
  exists s e, DeclSpec.latest a_table 1 0 s /\ DeclModel.sParm s = DeclModel.PType e /\
    DeclModel.tType e = kind_of xInteger /\ DeclModel.tSize e = size_of xInteger.
Proof. exact declared_case. Qed.

(** The code of the indices pushes the distance of the element, whether or not the
    indices are within the bounds.  Missing: index types other than ranges of
    integers; indices with elements of arrays in them. *)
Theorem C78_offset_partial : forall lev l p a ts es,
  array_at l p a -> proper a -> gindices ts es -> length es = length (abounds a) -> Forall (index_ok lev) es ->
  exists t ps, type_of l p = Some t /\
    (forall c rest n b, toks c = b :: ts ++ rest -> tk b = tLBRACK -> g_level c = lev -> (4 * length (toks c) + 5 <= n)%nat ->
       exists c', array_index n l t c = ADone c' /\ errorless c c' rest ps) /\
    forall env vs, ivalues env es vs ->
      computes lev ps (2 * Z.of_nat (length ts) + 1) (ivars es) env [distance (size_of (aty a)) (abounds a) vs mod 65536].
Proof. exact offset. Qed.
Print Assumptions C78_offset_partial.

Example C78_offset_case :
  (array_at a_table 5 ex_arr /\ proper ex_arr /\ reachable 1 ex_arr) /\
  gindices ix_tokens ix_exprs /\ length ix_exprs = length (abounds ex_arr) /\ Forall (index_ok 1) ix_exprs /\
  (forall k, -32768 <= k <= 32766 -> ivalues (ix_env k) ix_exprs [k + 1; 2]) /\ Forall2 bounded (abounds ex_arr) [2; 2] /\
  elem ex_arr [2; 2] = mkVar xInteger 1 22.
Proof. split; [exact ex_at|exact ix_case]. Qed.

Theorem C78_inside : forall a vs, proper a -> Forall2 bounded (abounds a) vs ->
  aoff a <= voff (elem a vs) /\ voff (elem a vs) + size_of (aty a) <= aoff a + asize a.
Proof. exact inside. Qed.
Print Assumptions C78_inside.

Example C78_inside_case : proper ex_arr /\ Forall2 bounded (abounds ex_arr) [3; 4] /\ voff (elem ex_arr [3; 4]) + 2 = aoff ex_arr + asize ex_arr.
Proof. split; [apply ex_at|]. split; [repeat constructor; vm_compute; congruence|reflexivity]. Qed.

Theorem C78_apart : forall a vs ws, proper a -> Forall2 bounded (abounds a) vs -> Forall2 bounded (abounds a) ws -> vs <> ws ->
  disjoint (voff (elem a vs)) (size_of (aty a)) (voff (elem a ws)) (size_of (aty a)).
Proof. exact apart. Qed.
Print Assumptions C78_apart.

Example C78_apart_case : proper ex_arr /\ Forall2 bounded (abounds ex_arr) [3; 1] /\ Forall2 bounded (abounds ex_arr) [1; 2] /\ [3; 1] <> [1; 2].
Proof.
  split; [apply ex_at|]. repeat match goal with
    | |- _ /\ _ => split
    | |- Forall2 _ _ _ => repeat constructor; vm_compute; congruence
    | |- _ => discriminate
    end.
Qed.

(** Missing: as above. *)
Theorem C78_load_partial : forall lev l p a v ts es,
  array_at l p a -> proper a -> reachable lev a -> sLevel v = alev a -> vOffset v = aoff a ->
  gindices ts es -> length es = length (abounds a) -> Forall (index_ok lev) es ->
  exists ps,
    (forall c rest n b, toks c = b :: ts ++ rest -> tk b = tLBRACK -> g_level c = lev -> (4 * length (toks c) + 5 <= n)%nat ->
       exists c', array_factor n l v p c = (Some (aty a), ADone c') /\ errorless c c' rest ps) /\
    forall env vs, ivalues env es vs -> Forall2 bounded (abounds a) vs ->
      computes lev ps (2 * Z.of_nat (length ts) + 3) (ivars es ++ [elem a vs]) env (words (aty a) (env (elem a vs))).
Proof. exact load. Qed.
Print Assumptions C78_load_partial.

(** The rest of the hypotheses: C78_offset_case *)
Example C78_load_case :
  array_factor 100 a_table a_sym 5 start_ix =
    (Some xInteger, ADone (after start_ix [semi]
      [mkOp oLDS 0 4; mkOp oPUSH 0 1; mkOp oADD 0 0; mkOp oPUSH 0 1; mkOp oSUB 0 0; mkOp oPUSH 0 2; mkOp oMUL 0 0;
       mkOp oPUSH 0 2; mkOp oPUSH 0 6; mkOp oMUL 0 0; mkOp oADD 0 0; mkOp oLDSX 0 8])) /\
  sLevel a_sym = alev ex_arr /\ vOffset a_sym = aoff ex_arr.
Proof. exact load_case. Qed.

Theorem C78_store_partial : forall lev l p a v ts es us e,
  array_at l p a -> proper a -> reachable lev a -> sLevel v = alev a -> vOffset v = aoff a ->
  gindices ts es -> length es = length (abounds a) -> Forall (index_ok lev) es ->
  gexpr us e -> etype_of (aty a) e = Some (aty a) -> (forall x, In x (evars e) -> addressable lev x) ->
  exists ps,
    (forall c rest n b g, toks c = b :: ts ++ g :: us ++ rest -> tk b = tLBRACK -> tk g = tASSIGN -> ended rest ->
       g_level c = lev -> (4 * length (toks c) + 5 <= n)%nat ->
       exists c', array_assignment n l v p c = ADone c' /\ errorless c c' rest ps) /\
    forall xs adr links base s0 s r vs z, placed lev xs adr links base s0 ->
      ready xs adr links base s0 s r -> room s (2 * Z.of_nat (length (ts ++ us)) + 3) ->
      incl (ivars es ++ evars e) xs -> In (elem a vs) xs ->
      ivalues r es vs -> Forall2 bounded (abounds a) vs -> evalue r (aty a) e = Some z -> storable (aty a) z = true ->
      exists s', exec_list ps s = Ok s' /\ effect xs adr s s' 0 (set r (elem a vs) z).
Proof. exact store. Qed.
Print Assumptions C78_store_partial.

Example C78_store_case : placed 1 [x1; a_elem] ex_adr (fun _ => False) 116 vma /\
  ready [x1; a_elem] ex_adr (fun _ => False) 116 vma vma (ix_env 1) /\
  room vma (2 * Z.of_nat (length (ix_tokens ++ tadd x1 40)) + 3) /\
  incl (ivars ix_exprs ++ evars (eadd x1 40)) [x1; a_elem] /\ gexpr (tadd x1 40) (eadd x1 40) /\
  etype_of xInteger (eadd x1 40) = Some xInteger /\
  evalue (ix_env 1) xInteger (eadd x1 40) = Some 41 /\ storable xInteger 41 = true /\
  set (ix_env 1) a_elem 41 a_elem = 41.
Proof. exact store_case. Qed.

Theorem C78_too_many_refuted : exists ts es,
  gindices ts es /\ Forall (index_ok 1) es /\ length es = S (length (abounds ex_arr)) /\
  forall rest, array_factor 100 a_table a_sym 5 (start_at 1 (kt tLBRACK :: ts ++ rest)) = (Some xInteger, AUndefined).
Proof. exact too_many_refuted. Qed.
Print Assumptions C78_too_many_refuted.

Theorem C78_too_few_refuted : exists ts es c',
  gindices ts es /\ (length es < length (abounds ex_arr))%nat /\
  array_factor 100 a_table a_sym 5 (start_at 1 (kt tLBRACK :: ts)) = (Some xInteger, ADone c') /\ errs c' = [].
Proof. exact too_few_refuted. Qed.
Print Assumptions C78_too_few_refuted.

Theorem C78_bounds_refuted : exists ts es c' s',
  gindices ts es /\ ivalues (ix_env 1) es [7; 0] /\ ~ Forall2 bounded (abounds ex_arr) [7; 0] /\
  array_assignment 100 a_table a_sym 5 (start_at 1 (kt tLBRACK :: ts ++ kt tASSIGN :: [nt 5])) = ADone c' /\ errs c' = [] /\
  exec_list (out c') vma = Ok s' /\
  Forall2 bounded (abounds ex_arr) [1; 2] /\ elem ex_arr [1; 2] = mkVar xInteger 1 20 /\
  contains vma xInteger 230 0 /\ contains s' xInteger 230 5.
Proof. exact bounds_refuted. Qed.
Print Assumptions C78_bounds_refuted.
