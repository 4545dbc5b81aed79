(** Lemmas about instruction encoding in the form used by the theorems. *)

From Coq Require Import ZArith Bool List Lia ZifyBool.
From Verif Require Import Words State Opcodes SetModel LongModel Machine EncodeModel EncodeSpec EncodeProofs
  VmSpec PcProofs WordLemmas StateLemmas.
Import ListNotations.
Open Scope Z_scope.
Ltac Zify.zify_post_hook ::= Z.div_mod_to_equations.

Lemma get_add_size p rest : wf_op p ->
  get_opcode false (add_opcode p ++ rest) =
    (p, Z.of_nat (length (add_opcode p)), op p =? oEND, rest) /\
  Z.of_nat (length (add_opcode p)) = insn_length (op p).
Proof.
  intros H. rewrite add_opcode_size, <- op_size_length. split; [|reflexivity]. apply get_add, H.
Qed.

Lemma reader_vm_length s p s' c l sz e r :
  0 <= c < 256 -> get_opcode false (c :: l) = (p, sz, e, r) ->
  c <> oRET -> c <> oPCAL ->
  exec_insn s p = Ok s' ->
  pc s' = (pc s + sz) mod 65536 \/ (In c jump_codes /\ pc s' = arg2 p).
Proof.
  intros Hc Hg H1 H2 He. destruct (get_opcode_size _ _ _ _ _ _ Hc Hg) as [A B]. subst sz.
  rewrite <- A in *. apply (exec_insn_pc s p s'); assumption.
Qed.

Lemma fetch_add pre p rest : wf_op p ->
  fetch (pre ++ add_opcode p ++ rest) (Z.of_nat (length pre)) = Some p.
Proof.
  destruct p as [c a1 a2]. intros (H1 & H2 & H3 & H4 & H5). cbn [op arg1 arg2] in *.
  unfold add_opcode. cbn [op arg1 arg2]. rewrite (fetch_bytes pre rest c a1 a2) by assumption.
  unfold has8, has16. rewrite (u8_small a1) by lia.
  destruct (Z.testbit c 6), (Z.testbit c 7); rewrite ?H4, ?H5 by reflexivity; reflexivity.
Qed.

Lemma long_branch_misread code target rest : long_branch code -> 0 <= target < 65536 ->
  exists p sz r, get_opcode false (snd (generate_long code target) ++ rest) = (p, sz, false, r) /\
    sz = 2 /\ arg2 p = 0 /\ Z.of_nat (length (snd (generate_long code target))) = 4.
Proof.
  intros H Ht. rewrite long_branch_read by exact H. do 3 eexists. split; [reflexivity|].
  split; [reflexivity|]. split; [reflexivity|].
  unfold generate_long. replace (has16 code) with true; [reflexivity|].
  unfold long_branch in H. assert (E : forallb has16 (map Z.of_nat (seq 192 16)) = true) by reflexivity.
  rewrite forallb_forall in E. symmetry. apply E. apply in_map_iff. exists (Z.to_nat code).
  split; [lia|]. apply in_seq. lia.
Qed.

Lemma long_branch_illegal s pre code target rest maxpc :
  long_branch code -> 0 <= target < 65536 -> pc s = Z.of_nat (length pre) -> pc s < maxpc ->
  exists s', execute (pre ++ snd (generate_long code target) ++ rest) maxpc s = Err eILLEGALOPCODE s'.
Proof.
  intros H Ht Hp Hm. unfold execute. replace (maxpc <=? pc s) with false by lia. rewrite Hp.
  assert (E : exists x y, snd (generate_long code target) = [u8 0x7f] ++ [u8 code] ++ x :: [y]).
  { unfold generate_long. replace (has16 code) with true.
    - cbn. do 2 eexists. reflexivity.
    - assert (E : forallb has16 (map Z.of_nat (seq 192 16)) = true) by reflexivity.
      rewrite forallb_forall in E. symmetry. apply E. apply in_map_iff. exists (Z.to_nat code).
      unfold long_branch in H. split; [lia|]. apply in_seq. lia. }
  destruct E as (x & y & E). rewrite E.
  pose proof (fetch_bytes pre ([x; y] ++ rest) 0x7f code 0 ltac:(lia) ltac:(lia)) as F.
  change (has8 127) with true in F. change (has16 127) with false in F. cbn beta iota in F.
  replace (pre ++ ([u8 127] ++ [u8 code] ++ [x; y]) ++ rest)
    with (pre ++ ([u8 127] ++ [u8 code] ++ []) ++ [x; y] ++ rest).
  - rewrite F. cbn [bindO]. eexists. apply long_branch_exec.
  - rewrite <- !app_assoc. reflexivity.
Qed.

Lemma generate_decoded pre rest code a1 a2 bytes :
  0 <= code < 256 -> 0 <= a1 < 65536 -> generate code a1 a2 = (false, bytes) ->
  exists p, fetch (pre ++ bytes ++ rest) (Z.of_nat (length pre)) = Some p /\ op p = code /\
    (Z.testbit code 6 = true -> arg1 p = a1) /\
    (Z.testbit code 7 = true -> word16 (arg2 p) a2).
Proof.
  intros H1 H2 H3. destruct (generate_ok pre rest code a1 a2 bytes H1 H2 H3) as (p & A & B & C & D).
  exists p. split; [exact A|]. split; [exact B|]. split; [exact C|].
  intros E. destruct (D E) as [F G]. split; [lia|exact G].
Qed.
