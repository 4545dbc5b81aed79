(** Properties C26-C34: strings *)

From Coq Require Import ZArith Bool List Lia.
From Verif Require Import Words State HeapModel HeapSpec HeapRegs HeapMain StringModel StringSpec StringProofs StringOps
  StringOps2 StringOps3 StringOps4 StringOps5 StringCases.
Import ListNotations.
Open Scope Z_scope.

(** C26 Delete, for positions from 1 to length + 1.  Missing: other positions,
    for which it does not hold. *)
Theorem C26_delete_partial : forall sbs s var buf cap v pos n,
  operands s [n; pos; var] -> str_var s var buf cap v -> 1 <= pos <= len v + 1 ->
  exists s', string_op sbs s lbDELSUBSTR = Ok s' /\ str_var s' var buf cap (delete v pos n) /\
             popped s s' 3 /\ only s s' (fun b => within buf (len v) b \/ within var 2 b).
Proof. exact delete_ok. Qed.
Print Assumptions C26_delete_partial.

Example C26_delete_case : let s := scene zero NULL [1; 2; 520] [(520, [3; 40; 10])] [(40, abc)] in
  operands s [1; 2; 520] /\ str_var s 520 40 10 abc /\ 1 <= 2 <= len abc + 1 /\ delete abc 2 1 = [97; 99].
Proof. cbv zeta. split; [decided|]. split; [decided|]. split; [vm_compute; split; discriminate | reflexivity]. Qed.

(** Position 0: the length becomes 65535 *)
Theorem C26_delete_zero_refuted : exists s var buf cap v pos n s',
  operands s [n; pos; var] /\ str_var s var buf cap v /\ string_op 80 s lbDELSUBSTR = Ok s' /\
  delete v pos n = v /\ word_at s' var 65535.
Proof. exact delete_zero_refuted. Qed.
Print Assumptions C26_delete_zero_refuted.

(** A position behind the end of the string: the string becomes longer *)
Theorem C26_delete_beyond_refuted : exists s var buf cap v pos n s',
  operands s [n; pos; var] /\ str_var s var buf cap v /\ string_op 80 s lbDELSUBSTR = Ok s' /\
  delete v pos n = v /\ len v = 3 /\ word_at s' var 4.
Proof. exact delete_beyond_refuted. Qed.
Print Assumptions C26_delete_beyond_refuted.

(** C27 Insert, for positions from 1 to length + 1, sums of the lengths that fit
    into 16 bits and sources that are not temporary.  Missing: other positions,
    for which it does not hold; release of a temporary source. *)
Theorem C27_insert_partial : forall sbs s var buf cap v src al x pos,
  operands s [pos; var; al; src; len x] -> str_var s var buf cap v -> str_data s src x -> not_temporary al ->
  apart buf cap src (len x) -> 1 <= pos <= len v + 1 -> len v + len x < 65536 ->
  exists s', string_op sbs s lbINSERTSTR = Ok s' /\ str_var s' var buf cap (truncate cap (insert x v pos)) /\
             popped s s' 5 /\ only s s' (fun b => within buf cap b \/ within var 2 b).
Proof. exact insert_ok. Qed.
Print Assumptions C27_insert_partial.

Example C27_insert_case :
  operands (s_ins 2) [2; 520; 2; 60; len [120; 121]] /\ str_var (s_ins 2) 520 40 10 abc /\
  str_data (s_ins 2) 60 [120; 121] /\ not_temporary 2 /\ apart 40 10 60 (len [120; 121]) /\
  insert [120; 121] abc 2 = [97; 120; 121; 98; 99].
Proof.
  split; [decided|]. split; [decided|]. split; [decided|]. split; [vm_compute; reflexivity|].
  split; [left; vm_compute; discriminate | reflexivity].
Qed.

(** Position 0: nothing is inserted, the string becomes longer *)
Theorem C27_insert_zero_refuted : exists s var buf cap v src al x pos s',
  operands s [pos; var; al; src; len x] /\ str_var s var buf cap v /\ str_data s src x /\ not_temporary al /\
  apart buf cap src (len x) /\ string_op 80 s lbINSERTSTR = Ok s' /\ pos = 0 /\
  ~ In 0 v /\ ~ In 0 x /\ str_var s' var buf cap (v ++ [0; 0]).
Proof. exact insert_zero_refuted. Qed.
Print Assumptions C27_insert_zero_refuted.

Theorem C27_insert_beyond_refuted : exists s var buf cap v src al x pos s',
  operands s [pos; var; al; src; len x] /\ str_var s var buf cap v /\ str_data s src x /\ not_temporary al /\
  apart buf cap src (len x) /\ string_op 80 s lbINSERTSTR = Ok s' /\ len v + 2 < pos /\
  ~ In 0 v /\ ~ In 0 x /\ str_var s' var buf cap (v ++ [0; 0]).
Proof. exact insert_beyond_refuted. Qed.
Print Assumptions C27_insert_beyond_refuted.

(** C28 Copy, with a heap used last-in-first-out: the substring in a new
    temporary string, or eNOMEMORY.  Missing: other heaps; a result for strings
    without a buffer. *)
Theorem C28_copy_partial : forall sbs si s0 es s live n pos al a v,
  heap_cfg (cf si) -> init_heap si = HV s0 -> hist true s0 es s live ->
  operands s [n; pos; al; a; len v] -> str_data s a v -> len v <= al mod 4096 -> sp s < c_hpb (cf s) ->
  stable s live a (len v) -> apart a (len v) (2 * (sp s / 2 - 4)) 6 ->
  (string_op sbs s lbCOPYSUBSTR = Err eNOMEMORY (discard s 2)) \/
  (exists s' sub, string_op sbs s lbCOPYSUBSTR = Ok s' /\
     top_string s' (al mod 4096 + 32768) sub (substring v pos n) /\
     regs (discard s 2) s' /\
     (exists es', hist true s0 es' s' ((sub, al mod 4096) :: live)) /\
     forall b, ~ in_heap (cf s) b \/ in_live live b -> ~ within (2 * (sp s / 2 - 4)) 6 b ->
               byte_of (mem s') b = byte_of (mem s) b).
Proof. exact copy_ok. Qed.
Print Assumptions C28_copy_partial.

Example C28_copy_case :
  heap_cfg (cf (scene zero NULL [] [] [])) /\ init_heap (scene zero NULL [] [] []) = HV heap1 /\
  hist true heap1 [EUser] s_copy [] /\ operands s_copy [5; 2; 10; 40; len abc] /\ str_data s_copy 40 abc /\
  len abc <= 10 mod 4096 /\ sp s_copy < c_hpb (cf s_copy) /\ stable s_copy [] 40 (len abc) /\
  apart 40 (len abc) (2 * (sp s_copy / 2 - 4)) 6 /\ substring abc 2 5 = [98; 99].
Proof.
  split; [exact heap1_cfg|]. split; [exact heap1_eq|]. split; [exact s_copy_hist|]. split; [decided|]. split; [decided|].
  split; [vm_compute; discriminate|]. split; [vm_compute; reflexivity|].
  split; [intros b Hb; left; unfold in_heap, within in *; change (len abc) with 3 in Hb; cbn; lia|].
  split; [left; vm_compute; discriminate | reflexivity].
Qed.

(** The empty string constant has no buffer: no memory for its copy *)
Theorem C28_copy_empty_refuted : exists s n pos al a s',
  operands s [n; pos; al; a; len []] /\ str_data s a [] /\ len [] <= al mod 4096 /\
  string_op 80 s lbCOPYSUBSTR = Err eNOMEMORY s'.
Proof. exact copy_empty_refuted. Qed.
Print Assumptions C28_copy_empty_refuted.

(** C29 Pos, for strings without NUL, that are not temporary, with room for
    copies on the string stack and start positions from 1 to length + 1.
    Missing: NUL and other start positions, for which it does not hold. *)
Theorem C29_find_partial : forall sbs s pos al a v sal sa x,
  operands s [pos; al; a; len v; sal; sa; len x] -> str_data s a v -> str_data s sa x ->
  not_temporary al -> not_temporary sal -> ~ In 0 v -> ~ In 0 x ->
  string_map (cf s) -> 0 <= csp s -> csp s + len v + len x + 2 < c_spb (cf s) ->
  apart (csp s) (len v + len x + 2) a (len v) -> apart (csp s) (len v + len x + 2) sa (len x) ->
  1 <= pos <= len v + 1 ->
  exists s' r, string_op sbs s lbFINDSUBSTR = Ok s' /\ tos s' 0 = Some r /\ first_occurrence x v pos r /\
    popped s s' 6 /\
    only s s' (fun b => within (csp s) (len v + len x + 2) b \/ within (2 * (sp s / 2 - 6)) 2 b).
Proof. exact find_ok. Qed.
Print Assumptions C29_find_partial.

Example C29_find_case : let s := s_pos 2 abc [98; 99] in
  operands s [2; 10; 80; len abc; 10; 100; len [98; 99]] /\ str_data s 80 abc /\ str_data s 100 [98; 99] /\
  not_temporary 10 /\ ~ In 0 abc /\ ~ In 0 [98; 99] /\ string_map (cf s) /\
  csp s + len abc + len [98; 99] + 2 < c_spb (cf s) /\ apart (csp s) (len abc + len [98; 99] + 2) 80 (len abc) /\
  apart (csp s) (len abc + len [98; 99] + 2) 100 (len [98; 99]) /\
  tos (result (string_op 80 s lbFINDSUBSTR)) 0 = Some 2.
Proof.
  cbv zeta. split; [decided|]. split; [decided|]. split; [decided|]. split; [vm_compute; reflexivity|].
  split; [cbn; lia|]. split; [cbn; lia|]. split; [repeat split; vm_compute; discriminate|]. split; [vm_compute; reflexivity|].
  split; [left; vm_compute; discriminate|]. split; [left; vm_compute; discriminate | vm_compute; reflexivity].
Qed.

(** A start position behind the string: the search finds the copy of the
    string searched for *)
Theorem C29_find_beyond_refuted : exists s pos al a v sal sa x s',
  operands s [pos; al; a; len v; sal; sa; len x] /\ str_data s a v /\ str_data s sa x /\
  not_temporary al /\ not_temporary sal /\ string_op 80 s lbFINDSUBSTR = Ok s' /\
  len v < pos /\ tos s' 0 = Some 5 /\ (forall r, first_occurrence x v pos r -> r = 0).
Proof. exact find_beyond_refuted. Qed.
Print Assumptions C29_find_beyond_refuted.

(** Characters behind a NUL are not found *)
Theorem C29_find_nul_refuted : exists s pos al a v sal sa x s',
  operands s [pos; al; a; len v; sal; sa; len x] /\ str_data s a v /\ str_data s sa x /\
  not_temporary al /\ not_temporary sal /\ string_op 80 s lbFINDSUBSTR = Ok s' /\
  tos s' 0 = Some 0 /\ pos = 1 /\ occurs x v 3.
Proof. exact find_nul_refuted. Qed.
Print Assumptions C29_find_nul_refuted.

(** C30 Comparison: the sign of the result is the lexicographic order, for all
    strings, temporary or not *)
Theorem C30_compare : forall sbs s al2 a2 v2 al1 a1 v1 s',
  operands s [al2; a2; len v2; al1; a1; len v1] -> str_data s a1 v1 -> str_data s a2 v2 ->
  string_op sbs s lbSTRCMP = Ok s' ->
  exists r, tos s' 0 = Some r /\ order_sign (s16 r) v1 v2 /\ sp s' = sp s - 10.
Proof. exact strcmp_result. Qed.
Print Assumptions C30_compare.

(** Strings that are not temporary can always be compared *)
Theorem C30_compare_defined : forall sbs s al2 a2 v2 al1 a1 v1,
  operands s [al2; a2; len v2; al1; a1; len v1] -> str_data s a1 v1 -> str_data s a2 v2 ->
  not_temporary al1 -> not_temporary al2 ->
  exists s', string_op sbs s lbSTRCMP = Ok s' /\ popped s s' 5 /\ only s s' (within (2 * (sp s / 2 - 5)) 2).
Proof. exact strcmp_defined. Qed.
Print Assumptions C30_compare_defined.

(** The lexicographic order is total *)
Theorem C30_order_total : forall v1 v2, lex_lt v1 v2 \/ v1 = v2 \/ lex_lt v2 v1.
Proof. exact lex_total. Qed.
Print Assumptions C30_order_total.

Theorem C30_order_strict : forall v1 v2 v3, ~ lex_lt v1 v1 /\ (lex_lt v1 v2 -> lex_lt v2 v3 -> lex_lt v1 v3).
Proof. intros v1 v2 v3. exact (conj (lex_irrefl v1) (lex_trans v1 v2 v3)). Qed.
Print Assumptions C30_order_strict.

Example C30_compare_case : let s := scene zero NULL [3; 60; 2; 10; 40; 3] [] [(40, abc); (60, [97; 200])] in
  operands s [3; 60; len [97; 200]; 10; 40; len abc] /\ str_data s 40 abc /\ str_data s 60 [97; 200] /\
  string_op 80 s lbSTRCMP = Ok (result (string_op 80 s lbSTRCMP)) /\
  tos (result (string_op 80 s lbSTRCMP)) 0 = Some (65536 - 102).
Proof. cbv zeta. split; [decided|]. split; [decided|]. split; [decided|]. split; [decided|]. vm_compute. reflexivity. Qed.

(** C31 Assignment, for capacities up to 4095.  Missing: larger capacities, for
    which it does not hold. *)
Theorem C31_assign_partial : forall sbs f s var off src al x buf cap v,
  assign_op f s var off src al x -> not_temporary al ->
  str_var s (u16 (var + off)) buf cap v -> str_data s src x -> src <> buf -> apart buf cap src (len x) ->
  exists s', string_op sbs s f = Ok s' /\ str_var s' (u16 (var + off)) buf cap (truncate cap x) /\
    popped s s' (assign_words f) /\
    only s s' (fun b => within buf (Z.min cap (len x)) b \/ within (u16 (var + off)) 2 b).
Proof. exact assign_ok. Qed.
Print Assumptions C31_assign_partial.

(** The source is the most recent temporary string, which is released *)
Theorem C31_assign_temporary_partial : forall sbs si s0 es live n f s var off src al x buf cap v,
  heap_cfg (cf si) -> init_heap si = HV s0 -> hist true s0 es s ((src, n) :: live) ->
  assign_op f s var off src al x -> ~ not_temporary al ->
  str_var s (u16 (var + off)) buf cap v -> str_data s src x -> src <> buf -> apart buf cap src (len x) ->
  stable s live buf cap -> stable s live (u16 (var + off)) 6 ->
  exists s', string_op sbs s f = Ok s' /\ str_var s' (u16 (var + off)) buf cap (truncate cap x) /\
    regs (discard s (assign_words f)) s' /\
    (exists es', hist true s0 es' s' live) /\
    forall b, ~ in_heap (cf s) b \/ in_live live b -> ~ within buf cap b -> ~ within (u16 (var + off)) 2 b ->
              byte_of (mem s') b = byte_of (mem s) b.
Proof. exact assign_temp_ok. Qed.
Print Assumptions C31_assign_temporary_partial.

(** Assignment of a variable to itself changes nothing *)
Theorem C31_assign_self_partial : forall sbs f s var off src al x cap v,
  assign_op f s var off src al x -> not_temporary al -> str_var s (u16 (var + off)) src cap v ->
  string_op sbs s f = Ok (discard s (assign_words f)).
Proof. exact assign_self. Qed.
Print Assumptions C31_assign_self_partial.

Example C31_assign_case : let s := scene zero NULL [520; 3; 60; 3] [(520, [0; 40; 2])] [(60, abc)] in
  assign_op lbSTRCPY s 520 0 60 3 abc /\ not_temporary 3 /\ str_var s (u16 (520 + 0)) 40 2 [] /\ str_data s 60 abc /\
  apart 40 2 60 (len abc) /\ truncate 2 abc = [97; 98].
Proof.
  cbv zeta. split; [left; split; [reflexivity|]; split; [reflexivity | decided]|]. split; [vm_compute; reflexivity|].
  split; [decided|]. split; [decided|]. split; [left; vm_compute; discriminate | reflexivity].
Qed.

Example C31_assign_temporary_case :
  hist true heap1 [EUser; EUser; ENew 776 10] s_asg [(776, 10)] /\
  assign_op lbSTRCPY s_asg 520 0 776 (10 + 32768) abc /\ ~ not_temporary (10 + 32768) /\
  str_var s_asg (u16 (520 + 0)) 40 2 [] /\ str_data s_asg 776 abc /\ apart 40 2 776 (len abc) /\
  stable s_asg [] 40 2 /\ stable s_asg [] (u16 (520 + 0)) 6.
Proof.
  split; [exact s_asg_hist|]. split; [left; split; [reflexivity|]; split; [reflexivity | decided]|].
  split; [unfold not_temporary; lia|]. split; [decided|]. split; [decided|]. split; [left; vm_compute; discriminate|].
  split; intros b Hb; left; unfold in_heap, within in *; cbn in *; lia.
Qed.

Example C31_assign_self_case : let s := scene zero NULL [520; 10; 40; 3] [(520, [3; 40; 10])] [(40, abc)] in
  assign_op lbSTRCPY s 520 0 40 10 abc /\ not_temporary 10 /\ str_var s (u16 (520 + 0)) 40 10 abc.
Proof.
  cbv zeta. split; [left; split; [reflexivity|]; split; [reflexivity | decided]|]. split; [vm_compute; reflexivity | decided].
Qed.

(** A variable with room for 5000 characters accepts 904 of 1000 *)
Theorem C31_assign_large_refuted : exists s var src al x buf cap s',
  assign_op lbSTRCPY s var 0 src al x /\ not_temporary al /\
  word_at s var 0 /\ word_at s (var + 2) buf /\ word_at s (var + 4) cap /\ inside s buf cap /\
  str_data s src x /\ apart buf cap src (len x) /\ apart var 6 buf cap /\ len x = 1000 /\ cap = 5000 /\
  string_op 80 s lbSTRCPY = Ok s' /\ word_at s' var 904.
Proof. exact assign_large_refuted. Qed.
Print Assumptions C31_assign_large_refuted.

(** C32 Concatenation: everything is appended if there is room, otherwise
    nothing.  Missing: the part for which there is room. *)
Theorem C32_concat_partial : forall sbs s sal src x dal dest v,
  operands s [sal; src; len x; dal; dest; len v] -> not_temporary sal ->
  str_data s src x -> chars_at (mem s) dest v -> inside s dest (dal mod 4096) -> len v <= dal mod 4096 ->
  apart dest (dal mod 4096) src (len x) -> apart dest (dal mod 4096) (2 * (sp s / 2 - 5)) 6 ->
  exists s', string_op sbs s lbSTRCAT = Ok s' /\ popped s s' 3 /\
    top_string s' dal dest (if len v + len x <=? dal mod 4096 then v ++ x else v) /\
    only s s' (fun b => within dest (dal mod 4096) b \/ within (2 * (sp s / 2 - 5)) 2 b).
Proof. exact strcat_ok. Qed.
Print Assumptions C32_concat_partial.

Example C32_concat_case : let s := scene zero NULL [2; 60; 2; 32768 + 8; 40; 3] [] [(40, abc); (60, [100; 101])] in
  operands s [2; 60; len [100; 101]; 32768 + 8; 40; len abc] /\ str_data s 60 [100; 101] /\ chars_at (mem s) 40 abc /\
  inside s 40 8 /\ apart 40 8 60 2 /\ apart 40 8 (2 * (sp s / 2 - 5)) 6 /\
  top_string (result (string_op 80 s lbSTRCAT)) (32768 + 8) 40 (abc ++ [100; 101]).
Proof.
  cbv zeta. split; [decided|]. split; [decided|]. split; [decided|]. split; [split; vm_compute; discriminate|].
  split; [left; vm_compute; discriminate|]. split; [left; vm_compute; discriminate|]. split; decided.
Qed.

(** Appending a character; the destination is not temporary *)
Theorem C32_concat_char_partial : forall sbs s ch dal dest v,
  operands s [ch; dal; dest; len v] -> not_temporary dal ->
  chars_at (mem s) dest v -> inside s dest dal -> len v <= dal -> apart dest dal (2 * (sp s / 2 - 3)) 6 ->
  if len v <? dal then
    exists s', string_op sbs s lbSTRCATC = Ok s' /\ popped s s' 1 /\ top_string s' dal dest (v ++ [ch mod 256]) /\
      only s s' (fun b => within dest dal b \/ within (2 * (sp s / 2 - 3)) 2 b)
  else string_op sbs s lbSTRCATC = Err eSTRSTKOVERFLOW (discard s 1).
Proof. exact strcatc_ok. Qed.
Print Assumptions C32_concat_char_partial.

Example C32_concat_char_case : let s := scene zero NULL [65; 8; 40; 3] [] [(40, abc)] in
  operands s [65; 8; 40; len abc] /\ not_temporary 8 /\ chars_at (mem s) 40 abc /\ inside s 40 8 /\
  apart 40 8 (2 * (sp s / 2 - 3)) 6.
Proof.
  cbv zeta. split; [decided|]. split; [vm_compute; reflexivity|]. split; [decided|]. split; [split; vm_compute; discriminate|].
  left; vm_compute; discriminate.
Qed.

(** Three and two characters, room for four: the result has three characters *)
Theorem C32_concat_refuted : exists s sal src x dal dest v s',
  operands s [sal; src; len x; dal; dest; len v] /\ not_temporary sal /\
  str_data s src x /\ chars_at (mem s) dest v /\ inside s dest (dal mod 4096) /\ len v <= dal mod 4096 /\
  apart dest (dal mod 4096) src (len x) /\ apart dest (dal mod 4096) (2 * (sp s / 2 - 5)) 6 /\
  string_op 80 s lbSTRCAT = Ok s' /\ top_string s' dal dest v /\ len (truncate (dal mod 4096) (v ++ x)) = 4 /\ len v = 3.
Proof. exact concat_refuted. Qed.
Print Assumptions C32_concat_refuted.

(** A character appended to a full temporary string overwrites the byte behind
    the buffer *)
Theorem C32_concat_char_refuted : exists s ch dal dest v s',
  operands s [ch; dal; dest; len v] /\ str_data s dest v /\ len v = dal mod 4096 /\ dal = len v + 32768 /\
  string_op 80 s lbSTRCATC = Ok s' /\ byte_of (mem s) (dest + dal mod 4096) = 0 /\ byte_of (mem s') (dest + dal mod 4096) = 65.
Proof. exact catc_temporary_refuted. Qed.
Print Assumptions C32_concat_char_refuted.

(** C33 Strings not longer than the array.  Missing: longer strings, for which
    it does not hold. *)
Theorem C33_array_partial : forall sbs x s array asize al buf off v,
  array_op x s array asize al buf off v -> not_temporary al -> str_data s buf v ->
  len v <= asize -> inside s (array + off) asize -> apart (array + off) asize buf (len v) ->
  exists s', string_op sbs s (if x then lbSTR2BSTRX else lbSTR2BSTR) = Ok s' /\
    popped s s' (if x then 6 else 5) /\ chars_at (mem s') (array + off) v /\
    only s s' (within (array + off) asize).
Proof. exact str2bstr_ok. Qed.
Print Assumptions C33_array_partial.

Example C33_array_case : let s := scene zero NULL [530; 5; 3; 40; 3] [] [(40, abc)] in
  array_op false s 530 5 3 40 0 abc /\ not_temporary 3 /\ str_data s 40 abc /\ len abc <= 5 /\ inside s (530 + 0) 5 /\
  apart (530 + 0) 5 40 (len abc).
Proof.
  cbv zeta. split; [split; [reflexivity | decided]|]. split; [vm_compute; reflexivity|]. split; [decided|].
  split; [vm_compute; discriminate|]. split; [split; vm_compute; discriminate|]. right; vm_compute; discriminate.
Qed.

Theorem C33_array_refuted : exists s array asize al buf off v s' b,
  array_op false s array asize al buf off v /\ not_temporary al /\ str_data s buf v /\
  inside s (array + off) asize /\ apart (array + off) asize buf (len v) /\
  string_op 80 s lbSTR2BSTR = Ok s' /\ ~ within (array + off) asize b /\ byte_of (mem s') b <> byte_of (mem s) b.
Proof. exact array_refuted. Qed.
Print Assumptions C33_array_refuted.

(** C34 All buffers in use are disjoint and below the base of the Pascal stack.
    Missing: below the constants, which does not hold. *)
Theorem C34_buffers_partial : forall sbs s0 s l,
  string_map (cf s0) -> csp s0 = 0 -> shist sbs s0 s l ->
  disjoint_blocks (buffers l) /\ forall b n, In (b, n) (buffers l) -> 0 <= b /\ b + n <= c_spb (cf s0).
Proof. exact shist_buffers. Qed.
Print Assumptions C34_buffers_partial.

(** A variable of 300 characters is granted by a string stack of 256 bytes *)
Theorem C34_constants_refuted : exists s0 s l b n,
  string_map (cf s0) /\ csp s0 = 0 /\ shist 80 s0 s l /\ In (b, n) (buffers l) /\ c_rop (cf s) < b + n.
Proof. exact strinit_refuted. Qed.
Print Assumptions C34_constants_refuted.

(** 65535 characters: nothing is reserved *)
Theorem C34_max_refuted : exists s var s',
  operands s [var; 65535] /\ string_op 80 s lbSTRINIT = Ok s' /\ csp s' = csp s /\ word_at s' (var + 4) 0.
Proof. exact strinit_max_refuted. Qed.
Print Assumptions C34_max_refuted.

Example C34_buffers_case : string_map (cf s_ini) /\ csp s_ini = 0 /\
  shist 80 s_ini (result (string_op 80 s_ini lbSTRINIT)) [Buf 0 300; Mark 0].
Proof.
  split; [repeat split; vm_compute; discriminate|]. split; [reflexivity|].
  apply (sh_step _ _ s_ini [Mark 0]).
  - apply (sh_step _ _ s_ini []); [apply sh_start|]. exact (ss_enter 80 s_ini []).
  - apply (ss_init _ _ _ 520); [decided | reflexivity | lia | decided | decided].
Qed.
