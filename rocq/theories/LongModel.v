(** insn16/libexec/libexec_longops.c.  Definitions only.

    A 32-bit value occupies two stack words.  With the union of :52-60 on a
    little-endian host word[0] is the low half; it is pushed first, word[1]
    (the high half) lies on the top. *)

From Coq Require Import ZArith Bool List.
From Verif Require Import Words State.
Import ListNotations.
Open Scope Z_scope.

(** enum longOp8_e, insn16/include/longops.h *)
Inductive longop8 :=
| oDNOP | oDNEG | oDABS | oDINC | oDDEC | oDNOT
| oDADD | oDSUB | oDMUL | oDDIV | oDMOD | oDSLL | oDSRL | oDSRA | oDOR | oDAND
| oDEQUZ | oDNEQZ | oDLTZ | oDGTEZ | oDGTZ | oDLTEZ
| oDEQU | oDNEQ | oDLT | oDGTE | oDGT | oDLTE
| oDDUP | oDXCHG | oCNVD | oUCNVD | oDCNV
| oDUMUL | oDUDIV | oDUMOD | oDULT | oDUGTE | oDUGT | oDULTE | oDXOR.

Definition decode_long8 (imm8 : Z) : option longop8 :=
  match imm8 with
  | 0x40 => Some oDNOP | 0x41 => Some oDNEG | 0x42 => Some oDABS | 0x43 => Some oDINC
  | 0x44 => Some oDDEC | 0x45 => Some oDNOT | 0x46 => Some oDADD | 0x47 => Some oDSUB
  | 0x48 => Some oDMUL | 0x49 => Some oDDIV | 0x4a => Some oDMOD | 0x4b => Some oDSLL
  | 0x4c => Some oDSRL | 0x4d => Some oDSRA | 0x4e => Some oDOR  | 0x4f => Some oDAND
  | 0x50 => Some oDEQUZ | 0x51 => Some oDNEQZ | 0x52 => Some oDLTZ | 0x53 => Some oDGTEZ
  | 0x54 => Some oDGTZ | 0x55 => Some oDLTEZ | 0x56 => Some oDEQU | 0x57 => Some oDNEQ
  | 0x58 => Some oDLT | 0x59 => Some oDGTE | 0x5a => Some oDGT | 0x5b => Some oDLTE
  | 0x5c => Some oDDUP | 0x5d => Some oDXCHG | 0x5e => Some oCNVD | 0x5f => Some oUCNVD
  | 0x60 => Some oDCNV | 0x61 => Some oDUMUL | 0x62 => Some oDUDIV | 0x63 => Some oDUMOD
  | 0x64 => Some oDULT | 0x65 => Some oDUGTE | 0x66 => Some oDUGT | 0x67 => Some oDULTE
  | 0x68 => Some oDXOR | _ => None
  end.

(** union uWord_u :52-60: assemble / take apart *)
Definition mk32 (lo hi : Z) : Z := lo + 65536 * hi.
Definition lo16 (v : Z) : Z := u16 v.
Definition hi16 (v : Z) : Z := u16 (v / 65536).

(** :74-82 *)
Definition upop32 (s : st) : option (Z * st) :=
  '(hi, s) <-? pop s ;; '(lo, s) <-? pop s ;; Some (mk32 lo hi, s).
(** :91-99 *)
Definition upush32 (s : st) (v : Z) : option st :=
  s <-? push s (lo16 v) ;; push s (hi16 v).
(** :108-116 *)
Definition ugettos32 (s : st) (off : Z) : option Z :=
  hi <-? tos s off ;; lo <-? tos s (off + 1) ;; Some (mk32 lo hi).
(** :125-133 *)
Definition uputtos32 (s : st) (v off : Z) : option st :=
  s <-? puttos s off (hi16 v) ;; puttos s (off + 1) (lo16 v).

(** One long operand replaced by [f] of it; [None]: undefined. :154-176 *)
Definition long_unary (f : Z -> option Z) (s : st) : outcome :=
  v <- ugettos32 s 0 ;; r <- f v ;; ret (uputtos32 s r 0).

(** Two long operands: the right one is popped. [f left right]. :180-258 *)
Definition long_binary (f : Z -> Z -> option Z) (s : st) : outcome :=
  '(b, s) <- upop32 s ;; a <- ugettos32 s 0 ;; r <- f a b ;; ret (uputtos32 s r 0).

(** Long shift: a 16-bit count is popped. :222-235 *)
Definition long_shift (f : Z -> Z -> option Z) (s : st) : outcome :=
  '(n, s) <- pop s ;; a <- ugettos32 s 0 ;; r <- f a n ;; ret (uputtos32 s r 0).

(** Comparison with zero. :262-322 *)
Definition long_cmpz (f : Z -> bool) (s : st) : outcome :=
  '(a, s) <- upop32 s ;; ret (push s (pbool (f (s32 a)))).

(** Comparisons: parm1 is popped first. [f parm1 parm2]. :326-441 *)
Definition long_scmp (f : Z -> Z -> bool) (s : st) : outcome :=
  '(p1, s) <- upop32 s ;; '(p2, s) <- upop32 s ;;
  ret (push s (pbool (f (s32 p1) (s32 p2)))).
Definition long_ucmp (f : Z -> Z -> bool) (s : st) : outcome :=
  '(p1, s) <- upop32 s ;; '(p2, s) <- upop32 s ;;
  ret (push s (pbool (f p1 p2))).

(** Signed int arithmetic: overflow is undefined. *)
Definition sint (x : Z) : option Z := if int_ok x then Some (u32 x) else None.

(** int32_t division; INT_MIN / -1 and division by 0 are undefined *)
Definition sdiv32 (a b : Z) : option Z :=
  if b =? 0 then None else sint (Z.quot a b).
Definition smod32 (a b : Z) : option Z :=
  if b =? 0 then None
  else if int_ok (Z.quot a b) then Some (u32 (Z.rem a b)) else None.

(** Shift counts outside of 0..31 are undefined.  Left shift of a signed
    operand has gcc's semantics (shift of the two's complement pattern). *)
Definition shift32 (f : Z -> Z -> Z) (a n : Z) : option Z :=
  if (0 <=? n) && (n <? 32) then Some (u32 (f a n)) else None.

(** libexec_LongOperation8 :142-496 *)
Definition long_operation8 (s : st) (imm8 : Z) : outcome :=
  match decode_long8 imm8 with
  | Some oDNOP => Ok s
  | Some oDNEG => long_unary (fun a => sint (- s32 a)) s
  | Some oDABS => v <- ugettos32 s 0 ;;
                  if s32 v <? 0
                  then r <- sint (- s32 v) ;; ret (uputtos32 s r 0)
                  else Ok s
  | Some oDINC => long_unary (fun a => Some (u32 (a + 1))) s
  | Some oDDEC => long_unary (fun a => Some (u32 (a - 1))) s
  | Some oDNOT => long_unary (fun a => Some (u32 (Z.lnot a))) s
  | Some oDADD => long_binary (fun a b => sint (s32 a + s32 b)) s
  | Some oDSUB => long_binary (fun a b => sint (s32 a - s32 b)) s
  | Some oDMUL => long_binary (fun a b => sint (s32 a * s32 b)) s
  | Some oDUMUL => long_binary (fun a b => Some (u32 (a * b))) s
  | Some oDDIV => long_binary (fun a b => sdiv32 (s32 a) (s32 b)) s
  | Some oDUDIV => long_binary (fun a b => if b =? 0 then None else Some (a / b)) s
  | Some oDMOD => long_binary (fun a b => smod32 (s32 a) (s32 b)) s
  | Some oDUMOD => long_binary (fun a b => if b =? 0 then None else Some (a mod b)) s
  | Some oDSLL => long_shift (fun a n => shift32 Z.shiftl (s32 a) n) s
  | Some oDSRL => long_shift (fun a n => shift32 Z.shiftr a n) s
  | Some oDSRA => long_shift (fun a n => shift32 Z.shiftr (s32 a) n) s
  | Some oDOR => long_binary (fun a b => Some (Z.lor a b)) s
  | Some oDAND => long_binary (fun a b => Some (Z.land a b)) s
  | Some oDXOR => long_binary (fun a b => Some (Z.lxor a b)) s
  | Some oDEQUZ => long_cmpz (fun a => a =? 0) s
  | Some oDNEQZ => long_cmpz (fun a => negb (a =? 0)) s
  | Some oDLTZ => long_cmpz (fun a => a <? 0) s
  | Some oDGTEZ => long_cmpz (fun a => 0 <=? a) s
  | Some oDGTZ => long_cmpz (fun a => 0 <? a) s
  | Some oDLTEZ => long_cmpz (fun a => a <=? 0) s
  | Some oDEQU => long_scmp (fun p1 p2 => p1 =? p2) s
  | Some oDNEQ => long_scmp (fun p1 p2 => negb (p1 =? p2)) s
  | Some oDLT => long_scmp (fun p1 p2 => p1 <? p2) s          (* :347-357 *)
  | Some oDGTE => long_scmp (fun p1 p2 => p2 <=? p1) s        (* :359-369 *)
  | Some oDGT => long_scmp (fun p1 p2 => p2 <? p1) s          (* :371-381 *)
  | Some oDLTE => long_scmp (fun p1 p2 => p1 <=? p2) s        (* :383-393 *)
  | Some oDULT => long_ucmp (fun p1 p2 => 0 <? p2) s          (* :395-405, result < uparm2 *)
  | Some oDUGTE => long_ucmp (fun p1 p2 => p2 <=? p1) s       (* :407-417 *)
  | Some oDUGT => long_ucmp (fun p1 p2 => p2 <? p1) s         (* :419-429 *)
  | Some oDULTE => long_ucmp (fun p1 p2 => p1 <=? p2) s       (* :431-441 *)
  | Some oDDUP => v <- ugettos32 s 0 ;; ret (upush32 s v)
  | Some oDXCHG =>                                            (* :450-455 *)
      u1 <- ugettos32 s 0 ;; u2 <- ugettos32 s 1 ;;
      s <- uputtos32 s u2 0 ;; ret (uputtos32 s u1 1)
  | Some oCNVD => '(w, s) <- pop s ;; ret (upush32 s (u32 (s16 w)))
  | Some oUCNVD => '(w, s) <- pop s ;; ret (upush32 s w)
  | Some oDCNV => '(v, s) <- upop32 s ;; ret (push s (u16 v))
  | None => Err eILLEGALOPCODE s
  end.

(** enum longOp24_e, insn16/include/longops.h *)
Inductive longop24 :=
| oDJEQUZ | oDJNEQZ | oDJLTZ | oDJGTEZ | oDJGTZ | oDJLTEZ
| oDJEQU | oDJNEQ | oDJLT | oDJGTE | oDJGT | oDJLTE
| oDJULT | oDJUGTE | oDJUGT | oDJULTE.

Definition decode_long24 (imm8 : Z) : option longop24 :=
  match imm8 with
  | 0xc0 => Some oDJEQUZ | 0xc1 => Some oDJNEQZ | 0xc2 => Some oDJLTZ
  | 0xc3 => Some oDJGTEZ | 0xc4 => Some oDJGTZ | 0xc5 => Some oDJLTEZ
  | 0xc6 => Some oDJEQU | 0xc7 => Some oDJNEQ | 0xc8 => Some oDJLT
  | 0xc9 => Some oDJGTE | 0xca => Some oDJGT | 0xcb => Some oDJLTE
  | 0xcc => Some oDJULT | 0xcd => Some oDJUGTE | 0xce => Some oDJUGT
  | 0xcf => Some oDJULTE | _ => None
  end.

Definition long_jump1 (f : Z -> bool) (s : st) (imm16 : Z) : outcome :=
  '(a, s) <- upop32 s ;;
  Ok (with_pc s (if f (s32 a) then imm16 else u16 (pc s + 4))).
Definition long_jump2 (f : Z -> Z -> bool) (s : st) (imm16 : Z) : outcome :=
  '(p1, s) <- upop32 s ;; '(p2, s) <- upop32 s ;;
  Ok (with_pc s (if f p2 p1 then imm16 else u16 (pc s + 4))).

(** libexec_LongOperation24 :505-668 *)
Definition long_operation24 (s : st) (imm8 imm16 : Z) : outcome :=
  let sj f := long_jump2 (fun a b => f (s32 a) (s32 b)) s imm16 in
  match decode_long24 imm8 with
  | Some oDJEQUZ => long_jump1 (fun a => a =? 0) s imm16
  | Some oDJNEQZ => long_jump1 (fun a => negb (a =? 0)) s imm16
  | Some oDJLTZ => long_jump1 (fun a => a <? 0) s imm16
  | Some oDJGTEZ => long_jump1 (fun a => 0 <=? a) s imm16
  | Some oDJGTZ => long_jump1 (fun a => 0 <? a) s imm16
  | Some oDJLTEZ => long_jump1 (fun a => a <=? 0) s imm16
  | Some oDJEQU => sj Z.eqb
  | Some oDJNEQ => sj (fun a b => negb (a =? b))
  | Some oDJLT => sj Z.ltb
  | Some oDJGTE => sj Z.geb
  | Some oDJGT => sj Z.gtb
  | Some oDJLTE => sj Z.leb
  | Some oDJULT => long_jump2 Z.ltb s imm16
  | Some oDJUGTE => long_jump2 Z.geb s imm16
  | Some oDJUGT => long_jump2 Z.gtb s imm16
  | Some oDJULTE => long_jump2 Z.leb s imm16
  | None => Err eILLEGALOPCODE (with_pc s (u16 (pc s + 4)))
  end.
