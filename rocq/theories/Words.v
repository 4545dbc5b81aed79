(** Machine words.  Definitions only.

    C integer types are modelled as [Z]; every conversion is explicit.
    uint8_t / uint16_t / uint32_t conversions reduce modulo 2^n (C11 6.3.1.3),
    conversions to signed types wrap (gcc/clang implementation-defined
    behaviour). *)

From Coq Require Import ZArith Bool List.
Open Scope Z_scope.

Definition u8  (x : Z) : Z := x mod 256.
Definition u16 (x : Z) : Z := x mod 65536.
Definition u32 (x : Z) : Z := x mod 4294967296.

(** libpas/psignextend8.c:52-56 signExtend8: (int16_t)arg8 << 8 >> 8 *)
Definition s8 (x : Z) : Z := let r := u8 x in if r <? 128 then r else r - 256.

(** libpas/psignextend16.c:52-56 signExtend16, and the C cast (sstack_t)x *)
Definition s16 (x : Z) : Z := let r := u16 x in if r <? 32768 then r else r - 65536.

(** The C cast (int32_t)x *)
Definition s32 (x : Z) : Z :=
  let r := u32 x in if r <? 2147483648 then r else r - 4294967296.

(** A value of type int (32 bits) can represent [x]; signed overflow is
    undefined behaviour otherwise (C11 6.5/5). *)
Definition int_ok (x : Z) : bool := (-2147483648 <=? x) && (x <=? 2147483647).

(** include/pas_machine.h:144-145 PASCAL_TRUE (-1), PASCAL_FALSE 0, as stored
    into a 16-bit stack word. *)
Definition pbool (b : bool) : Z := if b then 65535 else 0.

(** Run-time error codes, include/pas_errcodes.h:349-383. *)
Definition eNOERROR        := 0.
Definition eBADPC          := 0xa0.
Definition eILLEGALOPCODE  := 0xa1.
Definition eBADSP          := 0xa2.
Definition eSTRSTKOVERFLOW := 0xa3.
Definition eNEWFAILED      := 0xa4.
Definition eDOUBLEFREE     := 0xa5.
Definition eEXIT           := 0xa6.
Definition eBADSYSIOFUNC   := 0xa7.
Definition eBADSYSLIBCALL  := 0xa8.
Definition eBADSETOPCODE   := 0xaa.
Definition eINTEGEROVERFLOW := 0xab.
Definition eVALUERANGE     := 0xac.
Definition eNESTINGLEVEL   := 0xad.
Definition eHUH            := 0x0d.
Definition eNOMEMORY       := 0x90.
