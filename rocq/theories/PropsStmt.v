(** Properties of the statement compiler. *)

From Coq Require Import ZArith Bool List Lia.
From Verif Require Import State Opcodes EncodeModel Machine VmSpec ExprModel ExprSpec ExprCases StmtModel StmtSpec StmtTotal StmtLabels StmtAccept StmtCases StmtAcceptCases.
Import ListNotations.
Open Scope Z_scope.

(** ** C68 The code of a statement does what the statement means *)

(** Missing: what [wf_stmt] excludes, because the code is wrong there; see the
    refutations. *)
Theorem C68_meaning_partial : forall lev xs o ts st c rest,
  gstmt o ts st -> wf_stmt false false st -> (forall x, In x (stmt_vars st) -> In x xs /\ addressable lev x) ->
  Forall (fun t => 0 <= tline t <= 65535) (ts ++ [hd eoftok rest]) -> follows rest -> (o = true -> tk (hd eoftok rest) <> tELSE) ->
  toks c = ts ++ rest -> g_level c = lev -> 0 <= g_label c -> g_label c + 2 * Z.of_nat (length ts) <= 65535 ->
  -32768 + 2 * Z.of_nat (length ts) <= g_adjust c <= 0 ->
  exists c' ps,
    (forall n, (4 * length (toks c) + 5 <= n)%nat -> statement n c = SDone c') /\
    toks c' = rest /\ errs c' = errs c /\ out c' = out c ++ ps /\
    forall adr links base s0 prog i s r r',
      placed lev xs adr links base s0 -> stands prog i ps ->
      ready xs adr links base s0 s r -> base <= (sp s + g_adjust c) / 2 -> room s (2 * Z.of_nat (length ts)) ->
      means st r Normal r' ->
      exists s', runs prog (i, s) ((i + length ps)%nat, s') /\ effect xs adr s s' 0 r'.
Proof. exact translated. Qed.
Print Assumptions C68_meaning_partial.

Example C68_case : let c := start_at 1 (ex_tokens ++ [semi]) in
  (gstmt false ex_tokens ex_stmt /\ wf_stmt false false ex_stmt /\
   (forall x, In x (stmt_vars ex_stmt) -> In x [x1; y1] /\ addressable 1 x) /\
   Forall (fun t => 0 <= tline t <= 65535) (ex_tokens ++ [semi]) /\ follows [semi]) /\
  (placed 1 [x1; y1] ex_adr (fun _ => False) 108 (vm2 0 0 0 0) /\
   ready [x1; y1] ex_adr (fun _ => False) 108 (vm2 0 0 0 0) (vm2 0 0 0 0) (fun _ => 0) /\
   room (vm2 0 0 0 0) (2 * Z.of_nat (length ex_tokens))) /\
  (means ex_stmt (fun _ => 0) Normal ex_result /\ ex_result x1 = 3 /\ ex_result y1 = 2) /\
  108 <= (sp (vm2 0 0 0 0) + g_adjust c) / 2 /\ g_label c + 2 * Z.of_nat (length ex_tokens) <= 65535 /\
  -32768 + 2 * Z.of_nat (length ex_tokens) <= g_adjust c <= 0.
Proof.
  split; [exact ex_syntax|]. split; [exact ex_placed|]. split; [exact ex_means|]. vm_compute. intuition congruence.
Qed.

Theorem C68_repeat_continue_refuted : exists ts st c' r',
  gstmt false ts st /\ st = SRepeat (SMore (incr x1 1) (SOne (SIf (erel x1 Less 5) SContinue))) (erel x1 Greater 0) /\
  means st (fun _ => 0) Normal r' /\ r' x1 = 1 /\
  statement 100 (start_at 1 (ts ++ [semi])) = SDone c' /\ errs c' = [] /\ toks c' = [semi] /\ NoDup (labels (out c')) /\
  exists s', runs (out c') (0%nat, vm2 0 0 0 0) (length (out c'), s') /\ rd s' 107 = Some 5.
Proof. exact repeat_continue_refuted. Qed.
Print Assumptions C68_repeat_continue_refuted.

Theorem C68_for_limit_refuted : exists ts body c' r',
  gstmt false ts (SFor x1 false (eint 32766) (eint 32767) body) /\ wf_stmt true true body /\
  for_each (means body) x1 [32766; 32767] (fun _ => 0) r' /\ r' y1 = 2 /\
  statement 100 (start_at 1 (ts ++ [semi])) = SDone c' /\ errs c' = [] /\ toks c' = [semi] /\ NoDup (labels (out c')) /\
  exists s', runs (out c') (0%nat, vm2 0 0 0 0) (length (out c'), s') /\ rd s' 108 = Some 5.
Proof. exact for_limit_refuted. Qed.
Print Assumptions C68_for_limit_refuted.

Theorem C68_for_final_refuted : exists ts c' r r',
  gstmt false ts (SFor x1 false (eint 1) (evar_ x1) (incr y1 1)) /\ r x1 = 5 /\ evalue r xInteger (evar_ x1) = Some 5 /\
  for_each (means (incr y1 1)) x1 [1; 2; 3; 4; 5] r r' /\ r' y1 = 5 /\
  statement 100 (start_at 1 (ts ++ [semi])) = SDone c' /\ errs c' = [] /\ toks c' = [semi] /\ NoDup (labels (out c')) /\
  exists s', runs (out c') (0%nat, vm2 5 0 0 0) (length (out c'), s') /\ rd s' 108 = Some 1.
Proof. exact for_final_refuted. Qed.
Print Assumptions C68_for_final_refuted.

Theorem C68_for_short_refuted : exists ts c',
  gstmt false ts (SFor h1 false (eint 1) (eint 3) (incr y1 1)) /\ vty h1 = xShortInteger /\
  etype_of xShortInteger (eint 1) = Some xShortInteger /\ etype_of xShortInteger (eint 3) = Some xShortInteger /\
  statement 100 (start_at 1 (ts ++ [semi])) = SDone c' /\ errs c' = [] /\ toks c' = [semi] /\ NoDup (labels (out c')) /\
  rdb (vm2 0 0 (256 * 5) 0) 219 = Some 5 /\
  exists s', runs (out c') (0%nat, vm2 0 0 (256 * 5) 0) (length (out c'), s') /\ rdb s' 219 = Some 0.
Proof. exact for_short_refuted. Qed.
Print Assumptions C68_for_short_refuted.

Theorem C68_for_long_refuted : exists ts c' r',
  gstmt false ts (SFor l1 false (eint 1) (eint 3) (incr y1 1)) /\ vty l1 = xLongInteger /\
  etype_of xLongInteger (eint 1) = Some xLongInteger /\ etype_of xLongInteger (eint 3) = Some xLongInteger /\
  for_each (means (incr y1 1)) l1 [1; 2; 3] (fun _ => 0) r' /\ r' y1 = 3 /\
  statement 100 (start_at 1 (ts ++ [semi])) = SDone c' /\ errs c' = [] /\ toks c' = [semi] /\ NoDup (labels (out c')) /\
  exists s', runs (out c') (0%nat, vm2 0 0 0 0) (length (out c'), s') /\ rd s' 108 = Some 1 /\ sp s' = sp (vm2 0 0 0 0) + 4.
Proof. exact for_long_refuted. Qed.
Print Assumptions C68_for_long_refuted.

Theorem C68_for_undefined_refuted : exists c, errs c = [] /\ statement 100 c = SUndefined.
Proof. exact for_undefined_refuted. Qed.
Print Assumptions C68_for_undefined_refuted.

Theorem C68_case_boolean_refuted : exists ts c',
  gstmt false ts (SCase (evar_ b1) (CCase [KBool true] (incr y1 1) CEnd)) /\ vty b1 = xBoolean /\
  statement 100 (start_at 1 (ts ++ [semi])) = SDone c' /\ errs c' = [eINTOVF].
Proof. exact case_boolean_refuted. Qed.
Print Assumptions C68_case_boolean_refuted.

Theorem C68_case_negative_refuted : exists ts c',
  ts = tcase [vt x1] ([kt tMINUS; nt 1] ++ kt tCOLON :: tincr y1 1 ++ [kt tEND]) /\ vty x1 = xInteger /\
  statement 100 (start_at 1 (ts ++ [semi])) = SDone c' /\ errs c' = [eINTCONST; eCOLON; eEND].
Proof. exact case_negative_refuted. Qed.
Print Assumptions C68_case_negative_refuted.

Theorem C68_case_long_refuted : exists ts c' r',
  gstmt false ts (SCase (evar_ l1) (CCase [KInt 1] (incr y1 1) CEnd)) /\ vty l1 = xLongInteger /\
  means (SCase (evar_ l1) (CCase [KInt 1] (incr y1 1) CEnd)) (set (fun _ => 0) l1 1) Normal r' /\ r' y1 = 1 /\
  statement 100 (start_at 1 (ts ++ [semi])) = SDone c' /\ errs c' = [] /\ toks c' = [semi] /\ NoDup (labels (out c')) /\
  exists s', runs (out c') (0%nat, vm2 0 0 1 0) (length (out c'), s') /\ rd s' 108 = Some 0 /\ sp s' = sp (vm2 0 0 1 0) + 2.
Proof. exact case_long_refuted. Qed.
Print Assumptions C68_case_long_refuted.

Theorem C68_case_type_refuted : exists ts c',
  gstmt false ts (SCase (evar_ x1) (CCase [KChar 97] (incr y1 1) CEnd)) /\ vty x1 = xInteger /\
  statement 100 (start_at 1 (ts ++ [semi])) = SDone c' /\ errs c' = [].
Proof. exact case_type_refuted. Qed.
Print Assumptions C68_case_type_refuted.

(** ** C69 Labels *)

(** Each label is placed once, and is new; without errors, each jump leads to a
    label of the statement or of the loop around it. *)
Theorem C69_labels : forall n c c', statement n c = SDone c' ->
  0 <= g_label c -> g_label c + 4 * Z.of_nat (length (toks c)) <= 65535 ->
  0 <= g_continue c <= 65535 -> 0 <= g_break c <= 65535 -> -32768 <= g_adjust c <= 32767 ->
  exists ps, out c' = out c ++ ps /\ NoDup (labels ps) /\
    (forall x, In x (labels ps) -> g_label c < x <= g_label c') /\
    g_label c <= g_label c' <= g_label c + 4 * (Z.of_nat (length (toks c)) - Z.of_nat (length (toks c'))) /\
    g_level c' = g_level c /\ g_continue c' = g_continue c /\ g_break c' = g_break c /\ g_adjust c' = g_adjust c /\
    (errs c' = errs c -> forall x, In x (targets ps) -> In x (labels ps) \/ (x <> 0 /\ (x = g_continue c \/ x = g_break c))).
Proof. exact statement_labels. Qed.
Print Assumptions C69_labels.

Example C69_case : let c := start_at 1 (ex_tokens ++ [semi]) in
  exists c', statement 200 c = SDone c' /\ errs c' = errs c /\ g_label c + 4 * Z.of_nat (length (toks c)) <= 65535 /\
    labels (out c') = [1; 4; 7; 6; 5; 3; 2] /\ targets (out c') = [2; 7; 6; 5; 2; 1].
Proof. eexists. split; [vm_compute; reflexivity|]. vm_compute. intuition congruence. Qed.

Theorem C69_determinate : forall prog a b c,
  NoDup (labels prog) -> (forall d, ~ step prog b d) -> (forall d, ~ step prog c d) -> runs prog a b -> runs prog a c -> b = c.
Proof. exact runs_det. Qed.
Print Assumptions C69_determinate.

(** Without the limit on the counter *)
Theorem C69_wrap_refuted : exists ts c c',
  gstmt false ts (SWhile (erel x1 Less 5) SBreak) /\ toks c = ts ++ [semi] /\ g_label c = 65534 /\
  statement 100 c = SDone c' /\ errs c' = errs c ++ [eNOTINLOOP].
Proof. exact wrap_refuted. Qed.
Print Assumptions C69_wrap_refuted.

(** ** C70 The compiler of statements ends *)

Theorem C70_ends : forall n c, (4 * length (toks c) + 5 <= n)%nat -> statement n c <> SNoFuel.
Proof. exact statement_ends. Qed.
Print Assumptions C70_ends.

Theorem C70_fuel : forall n m c, (n <= m)%nat -> statement n c <> SNoFuel -> statement m c = statement n c.
Proof. exact statement_fuel. Qed.
Print Assumptions C70_fuel.

Theorem C70_stops : forall n c c', statement n c = SDone c' -> (length (toks c') <= length (toks c))%nat.
Proof. exact statement_stops. Qed.
Print Assumptions C70_stops.

Example C70_case : let c := start_at 1 (ex_tokens ++ [semi]) in
  exists c', (4 * length (toks c) + 5 <= 200)%nat /\ statement 200 c = SDone c' /\ statement 3 c = SNoFuel.
Proof. eexists. split; [vm_compute; repeat constructor|]. split; vm_compute; reflexivity. Qed.

(** ** C71 What is accepted is a statement *)

(** Missing: real and scalar constants; see the refutation. *)
Theorem C71_accepts_partial : forall n c c', statement n c = SDone c' -> errs c' = errs c -> Forall known (toks c) ->
  exists o ts s, toks c = ts ++ toks c' /\ gstmt o ts s /\
    lax_stmt (negb (g_break c =? 0)) (negb (g_continue c =? 0)) s /\ (o = true -> tk (hd eoftok (toks c')) <> tELSE).
Proof. exact stmt_accepted. Qed.
Print Assumptions C71_accepts_partial.

Example C71_case : let c := start_at 1 (ex_tokens ++ [semi]) in
  Forall known (toks c) /\ exists c', statement 200 c = SDone c' /\ errs c' = errs c /\ toks c' = [semi].
Proof. split; [exact ex_known|exact ex_accepted]. Qed.

Theorem C71_real_refuted : exists ts c',
  ts = tcase [vt x1] ([mkTok tREAL_CONST 0 0 nosym 1] ++ kt tCOLON :: tincr y1 1 ++ [kt tEND]) /\
  statement 100 (start_at 1 (ts ++ [semi])) = SDone c' /\ errs c' = [] /\ toks c' = [semi] /\
  forall o s, ~ gstmt o ts s.
Proof. exact real_refuted. Qed.
Print Assumptions C71_real_refuted.
