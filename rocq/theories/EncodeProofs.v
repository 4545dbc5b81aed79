(** Proofs about instruction encoding. *)

From Coq Require Import ZArith Bool List Lia ZifyBool.
From Verif Require Import Words State Opcodes SetModel LongModel Machine EncodeModel EncodeSpec WordLemmas StateLemmas.
Import ListNotations.
Open Scope Z_scope.
Ltac Zify.zify_post_hook ::= Z.div_mod_to_equations.

Lemma land255 x : Z.land x 255 = x mod 256.
Proof. change 255 with (Z.ones 8). rewrite Z.land_ones by lia. reflexivity. Qed.

Lemma getbyte_u8 b l : getbyte (u8 b :: l) = (u8 b, l).
Proof. cbn [getbyte]. rewrite u8_u8. reflexivity. Qed.

Lemma be_bytes v : 0 <= v < 65536 ->
  u16 (Z.lor (u16 (Z.shiftl (u8 (v / 256)) 8)) (Z.land (u8 (Z.land v 255)) 255)) = v.
Proof.
  intros Hv. rewrite !land255. rewrite Z.shiftl_mul_pow2 by lia. change (2 ^ 8) with 256.
  rewrite (u8_small (v / 256)) by lia. rewrite (u8_small (v mod 256)) by lia.
  rewrite Z.mod_mod by lia. rewrite (u16_small (v / 256 * 256)) by lia.
  assert (E : Z.lor (v / 256 * 256) (v mod 256) = v / 256 * 256 + v mod 256).
  { rewrite <- Z.lxor_lor, <- Z.add_nocarry_lxor; try reflexivity;
      apply Z.bits_inj_0; intros n; rewrite Z.land_spec;
      (destruct (Z_lt_le_dec n 0); [rewrite Z.testbit_neg_r by lia; reflexivity|];
       change 256 with (2 ^ 8);
       destruct (Z_lt_le_dec n 8);
       [rewrite Z.mul_pow2_bits_low by lia; reflexivity|
        rewrite Z.mod_pow2_bits_high by lia; apply andb_false_r]). }
  rewrite E. rewrite u16_small by lia. lia.
Qed.

Lemma add_opcode_size p : Z.of_nat (length (add_opcode p)) = op_size (op p).
Proof. unfold add_opcode, op_size. destruct (has8 (op p)), (has16 (op p)); reflexivity. Qed.

Lemma get_add p l : wf_op p ->
  get_opcode false (add_opcode p ++ l) = (p, op_size (op p), op p =? oEND, l).
Proof.
  intros (H1 & H2 & H3 & H4 & H5). unfold get_opcode, add_opcode.
  cbn [app]. rewrite getbyte_u8. rewrite (u8_small (op p)) by lia.
  cbn [orb]. replace (op p =? -1) with false by lia.
  destruct p as [o a1 a2]. cbn [op arg1 arg2] in *.
  destruct (has8 o) eqn:E8; destruct (has16 o) eqn:E16; cbn [app].
  - rewrite !getbyte_u8. rewrite u8_u8, (u8_small a1) by lia. rewrite be_bytes by lia. reflexivity.
  - rewrite getbyte_u8. rewrite u8_u8, (u8_small a1) by lia. rewrite (H5 E16). reflexivity.
  - rewrite !getbyte_u8. rewrite be_bytes by lia. rewrite (H4 E8). reflexivity.
  - rewrite (H4 E8), (H5 E16). reflexivity.
Qed.

Lemma sizes_add ps : Z.of_nat (length (write_program ps)) =
  fold_right (fun p n => op_size (op p) + n) 0 ps.
Proof.
  induction ps as [|p ps IH]; [reflexivity|]. cbn [write_program fold_right].
  rewrite app_length, Nat2Z.inj_add, add_opcode_size, IH. reflexivity.
Qed.

Lemma write_read ps rest n :
  Forall wf_op ps -> Forall (fun p => op p <> oEND) ps -> (length ps < n)%nat ->
  read_program n false (write_program (ps ++ [mkOp oEND 0 0]) ++ rest) =
    Some (ps ++ [mkOp oEND 0 0], Z.of_nat (length (write_program (ps ++ [mkOp oEND 0 0]))), rest).
Proof.
  revert n. induction ps as [|p ps IH]; intros n Hwf Hne Hn; (destruct n as [|n]; [cbn [length] in Hn; lia|]).
  - reflexivity.
  - inversion Hwf as [|? ? W1 W2]; inversion Hne as [|? ? N1 N2]; subst.
    cbn [app write_program read_program]. rewrite <- app_assoc, get_add by exact W1.
    replace (op p =? oEND) with false by lia.
    rewrite (IH n W2 N2) by (cbn [length] in Hn; lia).
    rewrite app_length, Nat2Z.inj_add, add_opcode_size. reflexivity.
Qed.

(** Reading a stream without END stops at its physical end. *)
Lemma write_read_unit ps n :
  Forall wf_op ps -> Forall (fun p => op p <> oEND) ps -> (length ps < n)%nat ->
  read_program n false (write_program ps) =
    Some (ps ++ [mkOp oEND 0 0], Z.of_nat (length (write_program ps)) + 1, []).
Proof.
  revert n. induction ps as [|p ps IH]; intros n Hwf Hne Hn; (destruct n as [|n]; [cbn [length] in Hn; lia|]).
  - reflexivity.
  - inversion Hwf as [|? ? W1 W2]; inversion Hne as [|? ? N1 N2]; subst.
    cbn [app write_program read_program]. rewrite get_add by exact W1.
    replace (op p =? oEND) with false by lia.
    rewrite (IH n W2 N2) by (cbn [length] in Hn; lia).
    rewrite app_length, Nat2Z.inj_add, add_opcode_size, Z.add_assoc. reflexivity.
Qed.

(** ** The code generator *)

Lemma ibyte_app l b r a : a = Z.of_nat (length l) -> ibyte (l ++ b :: r) a = Some (u8 b).
Proof.
  intros ->. unfold ibyte. replace (Z.of_nat (length l) <? 0) with false by lia.
  rewrite Nat2Z.id, nth_error_app2, Nat.sub_diag by lia. reflexivity.
Qed.

Lemma ibyte_app_k l k b r : nth_error r k = Some b -> ibyte (l ++ r) (Z.of_nat (length l) + Z.of_nat k) = Some (u8 b).
Proof.
  intros H. unfold ibyte. replace (_ <? 0) with false by lia.
  replace (Z.to_nat _) with (length l + k)%nat by lia.
  rewrite nth_error_app2 by lia. replace (length l + k - length l)%nat with k by lia. rewrite H. reflexivity.
Qed.

Lemma be16_bytes v : 0 <= v < 65536 -> be16 (u8 (v / 256)) (u8 (Z.land v 255)) = v.
Proof. intros H. unfold be16. rewrite land255. unfold u8. lia. Qed.

(** What the virtual machine fetches at the position of a written instruction *)
Lemma fetch_bytes pre rest code a1 v :
  0 <= code < 256 -> 0 <= v < 65536 ->
  fetch (pre ++ ([u8 code] ++ (if has8 code then [u8 a1] else []) ++
         (if has16 code then [u8 (v / 256); u8 (Z.land v 0xff)] else [])) ++ rest)
        (Z.of_nat (length pre)) =
  Some (mkOp code (if has8 code then u8 a1 else 0) (if has16 code then v else 0)).
Proof.
  intros Hc Hv. unfold fetch. cbn [app]. rewrite ibyte_app by reflexivity. cbn [bindO].
  rewrite u8_u8, (u8_small code) by lia.
  destruct (has8 code) eqn:E8; destruct (has16 code) eqn:E16; cbn [app].
  - rewrite (ibyte_app_k pre 1 (u8 a1)) by reflexivity. cbn [bindO].
    rewrite (ibyte_app_k pre 2 (u8 (v / 256))) by reflexivity. cbn [bindO].
    rewrite (ibyte_app_k pre 3 (u8 (Z.land v 255))) by reflexivity. cbn [bindO].
    rewrite !u8_u8, be16_bytes by lia. reflexivity.
  - rewrite (ibyte_app_k pre 1 (u8 a1)) by reflexivity. cbn [bindO]. rewrite u8_u8. reflexivity.
  - rewrite (ibyte_app_k pre 1 (u8 (v / 256))) by reflexivity. cbn [bindO].
    rewrite (ibyte_app_k pre 2 (u8 (Z.land v 255))) by reflexivity. cbn [bindO].
    rewrite !u8_u8, be16_bytes by lia. reflexivity.
  - reflexivity.
Qed.

Lemma generate_ok pre rest code a1 a2 bytes :
  0 <= code < 256 -> 0 <= a1 < 65536 -> generate code a1 a2 = (false, bytes) ->
  exists p, fetch (pre ++ bytes ++ rest) (Z.of_nat (length pre)) = Some p /\ op p = code /\
    (has8 code = true -> arg1 p = a1) /\
    (has16 code = true -> 0 <= arg2 p < 65536 /\ exists k, arg2 p = a2 + 65536 * k).
Proof.
  intros Hc Ha1 H. pose proof (f_equal fst H) as He. pose proof (f_equal snd H) as Hb.
  unfold generate in He, Hb. cbn [fst snd] in He, Hb. subst bytes. clear H.
  rewrite (fetch_bytes pre rest code a1 (u16 a2) Hc (u16_range a2)).
  eexists; split; [reflexivity|]. cbn [op arg1 arg2]. split; [reflexivity|]. split.
  - intros E. rewrite E in *. apply u8_small. lia.
  - intros E. rewrite E. split; [apply u16_range|]. exists (- (a2 / 65536)). unfold u16. lia.
Qed.

Lemma generate_reports code a1 a2 :
  fst (generate code a1 a2) = true <->
  (has8 code = true /\ 255 < a1) \/ (has16 code = true /\ ~ (-32768 <= a2 <= 65535)).
Proof.
  unfold generate. cbn [fst]. destruct (has8 code), (has16 code); cbn [andb orb]; lia.
Qed.

(** ** Long branches *)

Lemma long_branch_read code a2 rest : 0xc0 <= code <= 0xcf ->
  get_opcode false (snd (generate_long code a2) ++ rest) =
    (mkOp 0x7f code 0, 2, false, [u8 (u16 a2 / 256); u8 (Z.land (u16 a2) 0xff)] ++ rest).
Proof.
  intros H. unfold generate_long.
  assert (E : has16 code = true).
  { assert (D : forall k, In k (map (fun n => 0xc0 + Z.of_nat n) (seq 0 16)) -> has16 k = true)
      by (apply Forall_forall; repeat constructor).
    apply D. apply in_map_iff. exists (Z.to_nat (code - 0xc0)). split; [lia|]. apply in_seq. lia. }
  rewrite E. cbn [snd app]. unfold get_opcode. rewrite getbyte_u8. cbn [orb].
  change (u8 oLONGOP24) with 0x7f. change (0x7f =? -1) with false. cbn [orb].
  change (has8 0x7f) with true. change (has16 0x7f) with false. cbv iota.
  rewrite getbyte_u8, u8_u8, (u8_small code) by lia. reflexivity.
Qed.

Lemma long_branch_exec s code x : exec_insn s (mkOp 0x7f code x) = Err eILLEGALOPCODE (with_pc s (u16 (pc s + 2))).
Proof. reflexivity. Qed.

Lemma op_size_length c : op_size c = insn_length c.
Proof. unfold op_size, insn_length, has8, has16. destruct (Z.testbit c 6), (Z.testbit c 7); reflexivity. Qed.

Lemma get_opcode_size c l p sz e r : 0 <= c < 256 ->
  get_opcode false (c :: l) = (p, sz, e, r) -> op p = c /\ sz = op_size c.
Proof.
  intros Hc. unfold get_opcode, getbyte. rewrite (u8_small c) by lia. cbn [orb].
  replace (c =? -1) with false by lia.
  destruct (has8 c), (has16 c);
    repeat match goal with |- context[match ?l with [] => _ | _ => _ end] => destruct l end;
    intros H; injection H as <- <- <- <-; auto.
Qed.
