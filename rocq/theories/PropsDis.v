(** C96: the listing of P-code. *)

From Coq Require Import ZArith Bool String Ascii List.
From Verif Require Import Words State Opcodes Machine LongModel EncodeModel EncodeSpec.
From Verif Require Import SysioModel DisModel DisSpec DisProofs DisLine DisMain DisSub DisCases.
Import ListNotations.
Open Scope Z_scope.

(** The listing shows the program: two programs with the same listing are the same program.  What
    is missing: FLOAT with converted arguments and the long branches, for which it is false (below);
    the line numbers that plist inserts. *)
Theorem C96_listing_partial : forall ps qs n m, Forall listable ps -> Forall listable qs ->
  (length ps < n)%nat -> (length qs < m)%nat ->
  exists t, list_program n 0 (write_program ps) = Some t /\
  (list_program m 0 (write_program qs) = Some t -> ps = qs).
Proof. exact listing. Qed.
Print Assumptions C96_listing_partial.

(** Each instruction stands on a line of its own behind the address of its first byte. *)
Theorem C96_address : forall ps p qs n, Forall listable (ps ++ p :: qs) -> (length (ps ++ p :: qs) < n)%nat ->
  exists before l after,
    list_program n 0 (write_program (ps ++ p :: qs)) =
      Some (before ++ hex8 (Z.of_nat (length (write_program ps)) mod 4294967296) ++ [32] ++ (l ++ [10]) ++ after) /\
    line p = Some (l ++ [10]) /\ ~ In 10 l /\ list_program n 0 (write_program ps) = Some before.
Proof. exact address. Qed.
Print Assumptions C96_address.

(** Any sequence of bytes has a listing: no table is read outside its bounds. *)
Theorem C96_total : forall l n, Forall byte l -> (length l < n)%nat -> exists t, list_program n 0 l = Some t.
Proof. exact total. Qed.
Print Assumptions C96_total.

(** An opcode is listed as invalid if and only if the machine does not execute it. *)
Theorem C96_invalid : forall o, wf_op o -> ~ In (op o) [oLONGOP8; oLONGOP24; oLABEL; oLINE] ->
  (executed (op o) <-> ~ exists r, line o = Some (chars "        Invalid Opcode" ++ r)).
Proof. exact invalid_shown. Qed.
Print Assumptions C96_invalid.

(** A sub-function of the set, operating system, string or input/output instructions is listed as
    invalid if and only if its code is none of the header files. *)
Theorem C96_subcodes : forall o, wf_op o -> In (op o) [oSETOP; oOSOP; oSTRLIB; oSYSIO] ->
  (subcode o <-> ~ exists p r, line o = Some (p ++ chars "Invalid" ++ r)).
Proof. exact sub_shown. Qed.
Print Assumptions C96_subcodes.

Example C96_subcodes_case : wf_op (mkOp oOSOP 4 0) /\ subcode (mkOp oOSOP 4 0) /\ wf_op (mkOp oOSOP 5 0) /\ ~ subcode (mkOp oOSOP 5 0).
Proof. exact osop_codes. Qed.

(** A program with all kinds of arguments, and its listing *)
Theorem C96_case : Forall listable program /\ (length program < 20)%nat /\
  list_program 20 0 (write_program program) = Some (List.concat (map (fun l => chars l ++ [10]) listed)).
Proof. exact program_listed. Qed.
Print Assumptions C96_case.

(** The bits of FLOAT that ask for the conversion of an integer argument are not shown: adding two
    reals and adding an integer to a real look the same. *)
Theorem C96_float_refuted : exists p q, wf_op p /\ wf_op q /\ op p = oFLOAT /\ op q = oFLOAT /\
  arg1 q = Z.lor (arg1 p) 0x40 /\ p <> q /\ line p = line q.
Proof. exact float_refuted. Qed.
Print Assumptions C96_float_refuted.

(** A long branch is listed as a long operation without an operand, and its target as two more
    instructions: DJNEQZ to 0x1234 looks like DNEG. *)
Theorem C96_long_branch_refuted : exists bytes t, generate_long 0xc1 0x1234 = (false, bytes) /\
  list_program 5 0 bytes = Some (chars "00000000         DNEG   " ++ [10] ++ t) /\
  list_program 5 0 (write_program [mkOp oLONGOP8 0x41 0]) = Some (chars "00000000         DNEG   " ++ [10]).
Proof. exact long_branch_refuted. Qed.
Print Assumptions C96_long_branch_refuted.

(** A code that is no long operation is listed as one. *)
Theorem C96_long_code_refuted : exists p q, wf_op p /\ wf_op q /\ op p = oLONGOP8 /\ op q = oLONGOP8 /\
  decode_long8 (arg1 p) = None /\ decode_long8 (arg1 q) <> None /\ line p = line q.
Proof. exact long_code_refuted. Qed.
Print Assumptions C96_long_code_refuted.
