(** Properties C05-C13: the 16-bit virtual machine. *)

From Coq Require Import ZArith Bool List Lia.
From Verif Require Import Words State Opcodes SetModel LongModel Machine VmSpec VmProofs MemProofs
  CallProofs MultiProofs IndexProofs VmRefuted Samples.
Import ListNotations.
Open Scope Z_scope.

(** C05 *)
Theorem C05_unary : forall c D R s a x y,
  In (c, D, R) unary_ops -> 0 <= sp s < 65536 -> tos s 0 = Some a -> D a ->
  exists s' r, exec_insn s (mkOp c x y) = Ok s' /\ R a r /\ stack_effect s s' 1 [r] /\
               pc s' = (pc s + 1) mod 65536.
Proof. exact unary_ops_correct. Qed.
Print Assumptions C05_unary.

Theorem C05_binary : forall c D R s a b x y,
  In (c, D, R) binary_ops -> 0 <= sp s < 65536 -> tos s 1 = Some a -> tos s 0 = Some b -> D a b ->
  exists s' r, exec_insn s (mkOp c x y) = Ok s' /\ R a b r /\ stack_effect s s' 2 [r] /\
               pc s' = (pc s + 1) mod 65536.
Proof. exact binary_ops_correct. Qed.
Print Assumptions C05_binary.

Example C05_example :
  tos demo 1 = Some 3 /\ tos demo 0 = Some 5 /\
  match exec_insn demo (mkOp oSUB 0 0) with Ok s' => tos s' 0 = Some 65534 /\ sp s' = 54 | _ => False end /\
  match exec_insn (demo_with [65529; 2]) (mkOp oDIV 0 0) with Ok s' => tos s' 0 = Some 65533 | _ => False end.
Proof. vm_compute. repeat split. Qed.

(** C06 does not hold: every division by zero and every shift by more than the
    width of int is undefined behaviour. *)
Theorem C06_refuted : exists s, wf_regs s /\ wf_cfg (cf s) /\
  exec_insn s (mkOp oDIV 0 0) = UB.
Proof. exact div_crashes. Qed.
Print Assumptions C06_refuted.

Theorem C06_refuted_all : forall c s a b x y,
  0 <= sp s < 65536 -> tos s 1 = Some a -> tos s 0 = Some b ->
  (In c [oDIV; oMOD; oUDIV; oUMOD] /\ b = 0) \/ (In c [oSLL; oSRL; oSRA] /\ 32 <= b) ->
  exec_insn s (mkOp c x y) = UB.
Proof. exact bad_operand_ub. Qed.
Print Assumptions C06_refuted_all.

(** What does hold: no undefined behaviour for the other operands. *)
Theorem C06_partial : forall c s a b x y,
  0 <= sp s < 65536 -> tos s 1 = Some a -> tos s 0 = Some b ->
  (In c [oDIV; oMOD; oUDIV; oUMOD] /\ b <> 0) \/ (In c [oSLL; oSRL; oSRA] /\ b < 32) ->
  exists s', exec_insn s (mkOp c x y) = Ok s'.
Proof. exact good_operand_ok. Qed.
Print Assumptions C06_partial.

Example C06_example : tos (demo_with [7; 0]) 0 = Some 0 /\ exec_insn (demo_with [7; 0]) (mkOp oMOD 0 0) = UB /\
  exists s', exec_insn (demo_with [7; 15]) (mkOp oSLL 0 0) = Ok s'.
Proof. split; [reflexivity|]. split; [reflexivity|]. eexists. reflexivity. Qed.

(** C07 *)
Theorem C07_compare_zero : forall c j s a x y target,
  In (c, j) jump_pairs1 -> 0 <= sp s < 65536 -> tos s 0 = Some a ->
  exists s1 s2 b, exec_insn s (mkOp c x y) = Ok s1 /\ tos s1 0 = Some b /\ (b = 65535 \/ b = 0) /\
    exec_insn s (mkOp j x target) = Ok s2 /\
    pc s2 = (if b =? 65535 then target else (pc s + 3) mod 65536) /\
    same_regs s s2 /\ sp s2 = (sp s1 - 2) mod 65536 /\ sp s1 = sp s /\ (forall i, rd s2 i = rd s i).
Proof. exact jump_pairs1_correct. Qed.
Print Assumptions C07_compare_zero.

Theorem C07_compare : forall c j s a b x y target,
  In (c, j) jump_pairs2 -> 0 <= sp s < 65536 -> tos s 1 = Some a -> tos s 0 = Some b ->
  exists s1 s2 r, exec_insn s (mkOp c x y) = Ok s1 /\ tos s1 0 = Some r /\ (r = 65535 \/ r = 0) /\
    exec_insn s (mkOp j x target) = Ok s2 /\
    pc s2 = (if r =? 65535 then target else (pc s + 3) mod 65536) /\
    same_regs s s2 /\ sp s2 = (sp s1 - 2) mod 65536 /\ sp s1 = sp s - 2 /\ (forall i, rd s2 i = rd s i).
Proof. exact jump_pairs2_correct. Qed.
Print Assumptions C07_compare.

Example C07_example :
  match exec_insn (demo_with [65535; 1]) (mkOp oJLT 0 0x99), exec_insn (demo_with [65535; 1]) (mkOp oJULT 0 0x99) with
  | Ok s1, Ok s2 => pc s1 = 0x99 /\ pc s2 = 0x43
  | _, _ => False end.
Proof. vm_compute. repeat split. Qed.

(** C08 *)
Theorem C08_call_return : forall s level target s1 s2 x y,
  room s 5 -> 0 <= fp s < 65536 -> 0 <= csp s < 65536 -> 0 <= lsp s < 256 -> 0 <= level < 256 ->
  exec_insn s (mkOp oPCAL level target) = Ok s1 ->
  cf s2 = cf s1 -> sp s2 = sp s1 ->
  (forall i, fp s1 / 2 <= i < fp s1 / 2 + 5 -> rd s2 i = rd s1 i) ->
  exists s3, exec_insn s2 (mkOp oRET x y) = Ok s3 /\
    pc s3 = (pc s + 4) mod 65536 /\ sp s3 = sp s /\ fp s3 = fp s /\ csp s3 = csp s /\
    lsp s3 = lsp s /\ cf s3 = cf s /\ (forall i, rd s3 i = rd s2 i).
Proof. exact call_return. Qed.
Print Assumptions C08_call_return.

(** The call itself writes only the five words of the frame header. *)
Theorem C08_call : forall s level target s1,
  room s 5 -> 0 <= fp s < 65536 -> 0 <= csp s < 65536 -> 0 <= lsp s < 256 -> 0 <= level < 256 ->
  exec_insn s (mkOp oPCAL level target) = Ok s1 ->
  pc s1 = target /\ sp s1 = sp s + 10 /\ fp s1 = sp s + 2 /\ csp s1 = csp s /\ lsp s1 = level /\
  (forall i, ~ (sp s / 2 < i <= sp s / 2 + 5) -> rd s1 i = rd s i).
Proof. exact call_effect. Qed.
Print Assumptions C08_call.

Example C08_example :
  room demo 5 /\
  match exec_insn demo (mkOp oPCAL 2 0x300) with
  | Ok s1 => pc s1 = 0x300 /\ fp s1 = 58 /\ tos s1 4 = Some 36 /\
     match exec_insn s1 (mkOp oRET 0 0) with
     | Ok s3 => pc s3 = 0x44 /\ sp s3 = 56 /\ fp s3 = 36 | _ => False end
  | _ => False end.
Proof. split; [unfold room; cbn; lia|]. vm_compute. repeat split. Qed.

(** C09 *)
Theorem C09_call : forall s level target l,
  room s 5 -> 0 <= fp s < 65536 -> 0 <= csp s < 65536 -> 0 <= lsp s < 256 -> 0 < level < 256 ->
  static_chain s (fp s) l ->
  (exists s1 h, exec_insn s (mkOp oPCAL level target) = Ok s1 /\ innermost s (fp s) (level - 1) h /\
     slink s1 (fp s1) h /\ frame_level s1 (fp s1) level) \/
  (exists s1, exec_insn s (mkOp oPCAL level target) = Err eNESTINGLEVEL s1 /\
     (forall i, rd s1 i = rd s i) /\
     forall k h, reaches s (fp s) k h -> frame_level s h (level - 1) ->
       exists j g, (j < k)%nat /\ reaches s (fp s) j g /\ frame_level s g 0).
Proof. exact pcal_chain. Qed.
Print Assumptions C09_call.

Theorem C09_address : forall s lvl off a, room s 1 -> frame_ea s lvl off 0 a ->
  exists s', exec_insn s (mkOp oLAS lvl off) = Ok s' /\ stack_effect s s' 0 [a] /\
    pc s' = (pc s + 4) mod 65536.
Proof. exact las_correct. Qed.
Print Assumptions C09_address.

Theorem C09_unique : forall s f n h h', innermost s f n h -> innermost s f n h' -> h = h'.
Proof. exact innermost_unique. Qed.
Print Assumptions C09_unique.

Example C09_example : static_chain demo (fp demo) 1 /\ reaches demo (fp demo) 1 16 /\
  match exec_insn demo (mkOp oPCAL 1 0x300) with
  | Ok s1 => slink s1 (fp s1) 16 | _ => False end /\
  match exec_insn demo (mkOp oPCAL 3 0x300) with
  | Err e _ => e = eNESTINGLEVEL | _ => False end.
Proof.
  split; [|split; [|split]].
  - apply chain_nested with (g := 16) (m := 0).
    + exists 1, 0. repeat split; lia.
    + lia.
    + reflexivity.
    + lia.
    + apply chain_main. exists 0, 0. repeat split; lia.
  - econstructor; [reflexivity|constructor].
  - vm_compute. reflexivity.
  - vm_compute. reflexivity.
Qed.

(** C10 does not hold: a parameter at a negative offset indexed beyond the
    frame pointer is loaded from another place than it was stored to. *)
Theorem C10_refuted : exists s off idx v s',
  tos s 0 = Some v /\ tos s 1 = Some idx /\
  exec_list [mkOp oSTSX 0 off; mkOp oPUSH 0 idx; mkOp oLDSX 0 off] s = Ok s' /\
  exists r, tos s' 0 = Some r /\ r <> v.
Proof. exact indexed_mismatch. Qed.
Print Assumptions C10_refuted.

(** It holds for a non-negative offset (a local variable) and for an index
    which stays below the frame pointer.  Missing: negative offset [z] with
    [z + idx >= 0]. *)
Theorem C10_partial : forall cs cl w s lvl off idx a v x,
  In (cs, cl, w) indexed_pairs ->
  4 <= sp s < c_ssz (cf s) -> c_ssz (cf s) <= 65536 -> c_ssz (cf s) mod 2 = 0 ->
  tos s 0 = Some v -> tos s 1 = Some idx ->
  frame_ea s lvl off idx a -> target_ok s (match w with Word => false | _ => true end) a ->
  (forall z, signed16 off z -> 0 <= z \/ z + idx < 0) ->
  a / 2 <> sp s / 2 - 1 ->
  (forall j f, (j < Z.to_nat lvl)%nat -> reaches s (fp s) j f -> f / 2 <> a / 2) ->
  (forall j f, (j < Z.to_nat lvl)%nat -> reaches s (fp s) j f -> f / 2 <> sp s / 2 - 1) ->
  exists s' r, exec_list [mkOp cs lvl off; mkOp oPUSH x idx; mkOp cl lvl off] s = Ok s' /\
    tos s' 0 = Some r /\ truncated w v r.
Proof. exact indexed_store_load. Qed.
Print Assumptions C10_partial.

Example C10_example : frame_ea (demo_with [4; 9]) 1 0 4 30 /\
  match exec_list [mkOp oSTSX 1 0; mkOp oPUSH 0 4; mkOp oLDSX 1 0] (demo_with [4; 9]) with
  | Ok s' => tos s' 0 = Some 9 /\ rd s' 15 = Some 9 | _ => False end.
Proof.
  split; [|vm_compute; repeat split].
  exists 16, 0. split; [econstructor; [reflexivity|constructor]|]. split; [split; [lia|exists 0; lia]|].
  split; [lia|exists 0; reflexivity].
Qed.

(** C11 *)
Theorem C11_store : forall c len byte ix EA s imm8 imm16 idx a v,
  In (c, len, byte, ix, EA) store_ops ->
  0 <= sp s < 65536 -> tos s 0 = Some v -> (ix = true -> tos s 1 = Some idx) ->
  EA s imm8 imm16 idx a -> target_ok s byte a ->
  exists s', exec_insn s (mkOp c imm8 imm16) = Ok s' /\
    only_stored s s' byte a v /\ same_regs s s' /\
    sp s' = (sp s - (if ix then 4 else 2)) mod 65536 /\ pc s' = (pc s + len) mod 65536.
Proof. exact store_ops_correct. Qed.
Print Assumptions C11_store.

Theorem C11_load : forall c len w ix EA s imm8 imm16 idx a v,
  In (c, len, w, ix, EA) load_ops ->
  room s (if ix then 0 else 1) -> (ix = true -> tos s 0 = Some idx) ->
  EA s imm8 imm16 idx a -> element s w a v ->
  exists s', exec_insn s (mkOp c imm8 imm16) = Ok s' /\
    stack_effect s s' (if ix then 1 else 0) [v] /\ pc s' = (pc s + len) mod 65536.
Proof. exact load_ops_correct. Qed.
Print Assumptions C11_load.

Example C11_example : global_ea demo 13 0 29 /\ target_ok demo true 29 /\
  match exec_insn demo (mkOp oSTB 0 13) with
  | Ok s' => rd demo 14 = Some 22 /\ rd s' 14 = Some (5 * 256 + 22) | _ => False end.
Proof. split; [split; [lia|exists 0; reflexivity]|]. vm_compute. repeat split. Qed.

(** C12 *)
Theorem C12_load : forall c len ix EA s imm8 imm16 idx a n s0,
  In (c, len, ix, EA) loadm_ops ->
  sp s < 65536 -> (if ix then 4 else 2) <= sp s ->
  tos s 0 = Some n -> (ix = true -> tos s 1 = Some idx) ->
  EA s imm8 imm16 idx a ->
  s0 = sp s - (if ix then 4 else 2) ->
  s0 + 2 * words_of n < c_ssz (cf s) -> c_ssz (cf s) <= 65536 -> c_ssz (cf s) mod 2 = 0 ->
  (0 < n -> a mod 2 = 0 /\ a + n <= c_ssz (cf s) /\
   disjoint a n (2 * (s0 / 2 + 1)) (2 * words_of n)) ->
  exists s', exec_insn s (mkOp c imm8 imm16) = Ok s' /\ same_regs s s' /\
    sp s' = s0 + 2 * words_of n /\ pc s' = (pc s + len) mod 65536 /\
    bytes_copied s s' a (2 * (s0 / 2 + 1)) n /\
    (forall i, ~ (s0 / 2 < i <= s0 / 2 + words_of n) -> rd s' i = rd s i).
Proof. exact loadm_ops_correct. Qed.
Print Assumptions C12_load.

Theorem C12_store : forall c len ix EA s imm8 imm16 idx a n k,
  In (c, len, ix, EA) storem_ops ->
  tos s 0 = Some n -> n < 65535 ->
  k = words_of n + (if ix then 1 else 0) -> 2 * (k + 1) <= sp s < c_ssz (cf s) ->
  (ix = true -> tos s k = Some idx) ->
  EA s imm8 imm16 idx a ->
  c_ssz (cf s) <= 65536 -> c_ssz (cf s) mod 2 = 0 ->
  (0 < n -> a mod 2 = 0 /\ a + n <= c_ssz (cf s) /\
   disjoint a n (2 * (sp s / 2 - words_of n)) n) ->
  exists s', exec_insn s (mkOp c imm8 imm16) = Ok s' /\ same_regs s s' /\
    sp s' = sp s - 2 * (k + 1) /\ pc s' = (pc s + len) mod 65536 /\
    bytes_copied s s' (2 * (sp s / 2 - words_of n)) a n /\
    (forall b, ~ (a <= b < a + n) -> rdb s' b = rdb s b).
Proof. exact storem_ops_correct. Qed.
Print Assumptions C12_store.

(** Assignment of a whole global variable of [n] bytes *)
Theorem C12_copy : forall s n src dst a d x1 x2 x3,
  tos s 0 = Some n -> 0 < n < 65535 -> 2 <= sp s ->
  global_ea s src 0 a -> global_ea s dst 0 d ->
  sp s + 2 * words_of n + 2 < c_ssz (cf s) -> c_ssz (cf s) <= 65536 -> c_ssz (cf s) mod 2 = 0 ->
  sp s mod 2 = 0 ->
  a mod 2 = 0 -> d mod 2 = 0 -> a + n <= sp s -> d + n <= sp s ->
  exists s', exec_list [mkOp oLDM x1 src; mkOp oPUSH x2 n; mkOp oSTM x3 dst] s = Ok s' /\
    same_regs s s' /\ sp s' = sp s - 2 /\ bytes_copied s s' a d n /\
    (forall b, b < sp s -> ~ (d <= b < d + n) -> rdb s' b = rdb s b).
Proof. exact block_copy. Qed.
Print Assumptions C12_copy.

Example C12_example : global_ea demo 10 0 26 /\ global_ea demo 30 0 46 /\ tos demo 0 = Some 5 /\
  match exec_list [mkOp oLDM 0 10; mkOp oPUSH 0 5; mkOp oSTM 0 30] demo with
  | Ok s' => rd s' 23 = Some 11 /\ rd s' 24 = Some 22 /\ rd s' 25 = Some 33 /\ rdb s' 51 = Some 0 | _ => False end.
Proof.
  split; [split; [lia|exists 0; reflexivity]|]. split; [split; [lia|exists 0; reflexivity]|].
  vm_compute. repeat split.
Qed.

(** C13 does not hold: a program of two instructions writes outside of the
    data stack of an otherwise sane machine. *)
Theorem C13_refuted : exists s code, wf_regs s /\ wf_cfg (cf s) /\ pc s = 0 /\
  run 10 code (Z.of_nat (length code)) s = Some UB.
Proof. exact wild_store. Qed.
Print Assumptions C13_refuted.

(** What does hold: the program counter is checked against the program. *)
Theorem C13_partial : forall code s n, Z.of_nat (length code) <= pc s ->
  run (S n) code (Z.of_nat (length code)) s = Some (Err eBADPC s).
Proof. exact pc_checked. Qed.
Print Assumptions C13_partial.

Example C13_example : run 1 [oNOP] 1 (with_pc demo 1) = Some (Err eBADPC (with_pc demo 1)).
Proof. reflexivity. Qed.
