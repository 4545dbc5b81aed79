(** Properties C01-C04: instruction encoding. *)

From Coq Require Import ZArith Bool List Lia.
From Verif Require Import Words State Opcodes SetModel LongModel Machine EncodeModel EncodeSpec EncodeProofs
  VmSpec PcProofs CodeLemmas Samples.
Import ListNotations.
Open Scope Z_scope.

(** C01.  A program ended by END, followed by anything, is read back. *)
Theorem C01_roundtrip : forall ps rest n,
  Forall wf_op ps -> Forall (fun p => op p <> oEND) ps -> (length ps < n)%nat ->
  read_program n false (write_program (ps ++ [the_end]) ++ rest) =
    Some (ps ++ [the_end], Z.of_nat (length (write_program (ps ++ [the_end]))), rest).
Proof. exact write_read. Qed.
Print Assumptions C01_roundtrip.

(** A unit has no END; the reader makes one up at the end of the file. *)
Theorem C01_roundtrip_unit : forall ps n,
  Forall wf_op ps -> Forall (fun p => op p <> oEND) ps -> (length ps < n)%nat ->
  read_program n false (write_program ps) =
    Some (ps ++ [the_end], Z.of_nat (length (write_program ps)) + 1, []).
Proof. exact write_read_unit. Qed.
Print Assumptions C01_roundtrip_unit.

(** The size reported for one instruction is the number of its bytes. *)
Theorem C01_sizes : forall p rest, wf_op p ->
  get_opcode false (add_opcode p ++ rest) =
    (p, Z.of_nat (length (add_opcode p)), op p =? oEND, rest) /\
  Z.of_nat (length (add_opcode p)) = insn_length (op p).
Proof. exact get_add_size. Qed.
Print Assumptions C01_sizes.

Example C01_example :
  let ps := [mkOp oPUSH 0 0xfedc; mkOp oLDS 3 0xfffe; mkOp oADD 0 0; mkOp oPUSHB 0x80 0; mkOp oPCAL 1 0x1234] in
  Forall wf_op ps /\ Forall (fun p => op p <> oEND) ps /\
  read_program 6 false (write_program (ps ++ [the_end]) ++ [7; 7]) = Some (ps ++ [the_end], 15, [7; 7]).
Proof.
  split; [|split; [|vm_compute; reflexivity]]; repeat constructor; cbn; (lia || discriminate || reflexivity).
Qed.

(** C02 *)
Theorem C02_length : forall s p s' c l sz e r,
  0 <= c < 256 -> get_opcode false (c :: l) = (p, sz, e, r) ->
  c <> oRET -> c <> oPCAL ->
  exec_insn s p = Ok s' ->
  pc s' = (pc s + sz) mod 65536 \/ (In c jump_codes /\ pc s' = arg2 p).
Proof. exact reader_vm_length. Qed.
Print Assumptions C02_length.

(** The interpreter decodes the same instruction as the tools. *)
Theorem C02_decode : forall pre p rest, wf_op p ->
  fetch (pre ++ add_opcode p ++ rest) (Z.of_nat (length pre)) = Some p.
Proof. exact fetch_add. Qed.
Print Assumptions C02_decode.

Example C02_example :
  match exec_insn demo (mkOp oSTS 0 0) with
  | Ok s' => pc s' = 0x44 /\ pc demo = 0x40
  | _ => False end /\
  get_opcode false [oSTS; 0; 0; 0; 9] = (mkOp oSTS 0 0, 4, false, [9]).
Proof. vm_compute. repeat split. Qed.

(** C03 does not hold: whatever the target and the long branch, the object
    tools read back a different, shorter instruction ... *)
Theorem C03_refuted : forall code target rest, long_branch code -> 0 <= target < 65536 ->
  exists p sz r, get_opcode false (snd (generate_long code target) ++ rest) = (p, sz, false, r) /\
    sz = 2 /\ arg2 p = 0 /\ Z.of_nat (length (snd (generate_long code target))) = 4.
Proof. exact long_branch_misread. Qed.
Print Assumptions C03_refuted.

(** ... and the machine, executing these bytes, reports an illegal opcode. *)
Theorem C03_refuted_exec : forall s pre code target rest maxpc,
  long_branch code -> 0 <= target < 65536 -> pc s = Z.of_nat (length pre) -> pc s < maxpc ->
  exists s', execute (pre ++ snd (generate_long code target) ++ rest) maxpc s = Err eILLEGALOPCODE s'.
Proof. exact long_branch_illegal. Qed.
Print Assumptions C03_refuted_exec.

Example C03_example : long_branch 0xc2 /\
  generate_long 0xc2 0x1234 = (false, [0x7f; 0xc2; 0x12; 0x34]).
Proof. split; [unfold long_branch; lia|reflexivity]. Qed.

(** C04 *)
Theorem C04_accepted : forall pre rest code a1 a2 bytes,
  0 <= code < 256 -> 0 <= a1 < 65536 -> generate code a1 a2 = (false, bytes) ->
  exists p, fetch (pre ++ bytes ++ rest) (Z.of_nat (length pre)) = Some p /\ op p = code /\
    (Z.testbit code 6 = true -> arg1 p = a1) /\
    (Z.testbit code 7 = true -> word16 (arg2 p) a2).
Proof. exact generate_decoded. Qed.
Print Assumptions C04_accepted.

Theorem C04_reported : forall code a1 a2,
  fst (generate code a1 a2) = true <->
  (Z.testbit code 6 = true /\ 255 < a1) \/ (Z.testbit code 7 = true /\ ~ (-32768 <= a2 <= 65535)).
Proof. exact generate_reports. Qed.
Print Assumptions C04_reported.

Example C04_example : fst (generate oLDS 2 (-6)) = false /\ fst (generate oLDS 256 0) = true /\
  fst (generate oPUSH 0 65536) = true.
Proof. vm_compute. repeat split. Qed.
