(** What a listing of P-code has to show.  Definitions only. *)

From Coq Require Import ZArith Bool List.
From Verif Require Import Words State Opcodes Machine LongModel EncodeSpec.
Import ListNotations.
Open Scope Z_scope.

(** The machine has a case for this byte (libexec_run.c). *)
Definition executed (o : Z) : Prop :=
  (0 <= o < 64 /\ decode_op8 o <> None) \/ (64 <= o < 128 /\ decode_op16 o <> None) \/
  (128 <= o < 192 /\ decode_op24 o <> None) \/ (192 <= o < 256 /\ decode_op32 o <> None).

(** The sub-function codes of include/pas_fpops.h, pas_setops.h, pas_oslib.h, pas_stringlib.h,
    pas_sysio.h and pas_longops.h; for FLOAT without the two bits that ask for a conversion of an
    argument. *)
Definition subcode (o : opType) : Prop :=
  (op o = oFLOAT -> 1 <= arg1 o <= 24 /\ arg1 o <> 9) /\
  (op o = oSETOP -> 1 <= arg1 o <= 14) /\
  (op o = oOSOP -> 0 <= arg1 o <= 4) /\
  (op o = oSTRLIB -> 0 <= arg2 o <= 26) /\
  (op o = oSYSIO -> 1 <= arg2 o <= 43) /\
  (op o = oLONGOP8 -> decode_long8 (arg1 o) <> None).

(** An instruction of the machine or one of the two pseudo operations, with a valid sub-function *)
Definition listable (o : opType) : Prop :=
  wf_op o /\ (executed (op o) \/ op o = oLABEL \/ op o = oLINE) /\ subcode o.

Definition byte (b : Z) : Prop := 0 <= b < 256.
