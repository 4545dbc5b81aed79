(** The listing of P-code: the statements in the form of the theorems, and cases. *)

From Coq Require Import ZArith Bool String Ascii List Lia ZifyBool.
From Verif Require Import Words State Opcodes Machine LongModel EncodeModel EncodeSpec.
From Verif Require Import SysioModel DisModel DisSpec DisProofs DisLine DisMain.
Import ListNotations.
Open Scope Z_scope.

Lemma listing ps qs n m : Forall listable ps -> Forall listable qs -> (length ps < n)%nat -> (length qs < m)%nat ->
  exists t, list_program n 0 (write_program ps) = Some t /\ (list_program m 0 (write_program qs) = Some t -> ps = qs).
Proof. intros. apply list_inj; assumption. Qed.

Lemma address ps p qs n : Forall listable (ps ++ p :: qs) -> (length (ps ++ p :: qs) < n)%nat ->
  exists before l after,
    list_program n 0 (write_program (ps ++ p :: qs)) =
      Some (before ++ hex8 (Z.of_nat (length (write_program ps)) mod 4294967296) ++ [32] ++ (l ++ [10]) ++ after) /\
    line p = Some (l ++ [10]) /\ ~ In 10 l /\ list_program n 0 (write_program ps) = Some before.
Proof.
  intros H Hn. destruct (list_address ps p qs n 0 ltac:(lia) H Hn) as (b & l & a & E1 & E2 & E3).
  assert (Hp : listable p) by (rewrite Forall_forall in H; apply H, in_or_app; right; left; reflexivity).
  destruct (line_newline p Hp) as (x & X1 & X2). rewrite X1 in E2. apply some_inj in E2. subst l.
  exists b, x, a. split; [exact E1 | auto].
Qed.

Lemma total l n : Forall byte l -> (length l < n)%nat -> exists t, list_program n 0 l = Some t.
Proof. intros. apply list_total; assumption. Qed.

Definition program : list opType :=
  [mkOp oLINE 3 300; mkOp oPUSHB 0xfe 0; mkOp oUPUSHB 0xfe 0; mkOp oPUSH 0 0xfffe; mkOp oADD 0 0; mkOp oLABEL 0 0x1f;
   mkOp oLDS 2 0xfffc; mkOp oJEQUZ 0 0x1f; mkOp oFLOAT 4 0; mkOp oSETOP 9 0; mkOp oOSOP 1 0; mkOp oSTRLIB 0 0x1a;
   mkOp oSYSIO 0 0x1b; mkOp oLONGOP8 0x46 0; mkOp oPCAL 1 0x40; mkOp oEND 0 0].

Definition listed : list string :=
  (["00000000 ; LINE  3:300";
    "00000004         PUSHB -2";
    "00000006         UPUSHB 254";
    "00000008         PUSH  -2";
    "0000000b         ADD   ";
    "0000000c L001f:  ";
    "0000000f         LDS   2, -4";
    "00000013         JEQUZ 0x001f";
    "00000016         FLOAT ADD";
    "00000018         SETOP MEMBER";
    "0000001a         OSOP NEW";
    "0000001c         LIB   VAL";
    "0000001f         SYSIO WRITEINT";
    "00000022         DADD   ";
    "00000024         PCAL  1, 0x0040";
    "00000028         END   "])%string.

Lemma listable_b o : 0 <= op o < 256 -> 0 <= arg1 o < 256 -> 0 <= arg2 o < 65536 ->
  (has8 (op o) || (arg1 o =? 0)) && (has16 (op o) || (arg2 o =? 0)) && listedb (op o) &&
  (negb (op o =? oFLOAT) || sub8 FPOP (arg1 o)) && (negb (op o =? oSETOP) || sub8 SETOP8 (arg1 o)) &&
  (negb (op o =? oOSOP) || sub8 OSOP8 (arg1 o)) && (negb (op o =? oSTRLIB) || sub16 LBOP (arg2 o)) &&
  (negb (op o =? oSYSIO) || sub16 XOP (arg2 o)) && (negb (op o =? oLONGOP8) || some (decode_long8 (arg1 o))) = true -> listable o.
Proof.
  intros H1 H2 H3 H. rewrite !andb_true_iff, !orb_true_iff, !negb_true_iff, !Z.eqb_neq in H.
  destruct H as ((((((((A & B) & C) & D1) & D2) & D3) & D4) & D5) & D6).
  split; [|split].
  - split; [exact H1|]. split; [exact H2|]. split; [exact H3|]. unfold has8, has16 in *. split; intros E.
    + destruct A as [A|A]; [congruence | apply Z.eqb_eq in A; exact A].
    + destruct B as [B|B]; [congruence | apply Z.eqb_eq in B; exact B].
  - unfold listedb in C. rewrite !orb_true_iff, !Z.eqb_eq in C. rewrite executed_b by exact H1. tauto.
  - unfold subcode. cbn [sub8 sub16] in *.
    split; [|split; [|split; [|split; [|split]]]]; intros E.
    + destruct D1 as [D|D]; [congruence | lia].
    + destruct D2 as [D|D]; [congruence | lia].
    + destruct D3 as [D|D]; [congruence | lia].
    + destruct D4 as [D|D]; [congruence | lia].
    + destruct D5 as [D|D]; [congruence | lia].
    + destruct D6 as [D|D]; [congruence | apply some_ne; exact D].
Qed.

Lemma program_listed : Forall listable program /\ (length program < 20)%nat /\
  list_program 20 0 (write_program program) = Some (List.concat (map (fun l => chars l ++ [10]) listed)).
Proof.
  split; [|split].
  - unfold program. repeat apply Forall_cons; try apply Forall_nil;
      (apply listable_b; cbn [op arg1 arg2]; [vm_compute; split; congruence | lia | lia | vm_compute; reflexivity]).
  - cbn. lia.
  - vm_compute. reflexivity.
Qed.

Ltac wf := unfold wf_op; cbn; repeat split; intros; try discriminate; try reflexivity; lia.

Lemma float_refuted : exists p q, wf_op p /\ wf_op q /\ op p = oFLOAT /\ op q = oFLOAT /\
  arg1 q = Z.lor (arg1 p) 0x40 /\ p <> q /\ line p = line q.
Proof.
  exists (mkOp oFLOAT 4 0), (mkOp oFLOAT 0x44 0). split; [wf|]. split; [wf|].
  repeat split; try (vm_compute; reflexivity). discriminate.
Qed.

Lemma long_branch_refuted : exists bytes t, generate_long 0xc1 0x1234 = (false, bytes) /\
  list_program 5 0 bytes = Some (chars "00000000         DNEG   " ++ [10] ++ t) /\
  list_program 5 0 (write_program [mkOp oLONGOP8 0x41 0]) = Some (chars "00000000         DNEG   " ++ [10]).
Proof.
  eexists [0x7f; 0xc1; 0x12; 0x34]. eexists. split; [vm_compute; reflexivity|].
  split; [vm_compute; reflexivity | vm_compute; reflexivity].
Qed.

Lemma long_code_refuted : exists p q, wf_op p /\ wf_op q /\ op p = oLONGOP8 /\ op q = oLONGOP8 /\
  decode_long8 (arg1 p) = None /\ decode_long8 (arg1 q) <> None /\ line p = line q.
Proof.
  exists (mkOp oLONGOP8 0x01 0), (mkOp oLONGOP8 0x41 0). split; [wf|]. split; [wf|].
  repeat split; try (vm_compute; reflexivity). discriminate.
Qed.
