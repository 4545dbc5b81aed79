(** Opcode bytes, insn16/include/insn16.h:50-441 (values computed from the
    #defines; oLONGOP24 is [(016|o8|0x37)] with an octal 016).
    Definitions only. *)

From Coq Require Import ZArith.
Open Scope Z_scope.

Definition oNOP := 0x00.
Definition oNEG := 0x01.
Definition oABS := 0x02.
Definition oINC := 0x03.
Definition oDEC := 0x04.
Definition oNOT := 0x05.
Definition oADD := 0x06.
Definition oSUB := 0x07.
Definition oMUL := 0x08.
Definition oDIV := 0x09.
Definition oMOD := 0x0a.
Definition oSLL := 0x0b.
Definition oSRL := 0x0c.
Definition oSRA := 0x0d.
Definition oOR := 0x0e.
Definition oAND := 0x0f.
Definition oEQUZ := 0x10.
Definition oNEQZ := 0x11.
Definition oLTZ := 0x12.
Definition oGTEZ := 0x13.
Definition oGTZ := 0x14.
Definition oLTEZ := 0x15.
Definition oEQU := 0x18.
Definition oNEQ := 0x19.
Definition oLT := 0x1a.
Definition oGTE := 0x1b.
Definition oGT := 0x1c.
Definition oLTE := 0x1d.
Definition oLDI := 0x20.
Definition oLDIB := 0x21.
Definition oULDIB := 0x22.
Definition oLDIM := 0x23.
Definition oSTI := 0x24.
Definition oSTIB := 0x26.
Definition oSTIM := 0x27.
Definition oDUP := 0x28.
Definition oXCHG := 0x2a.
Definition oRET := 0x2f.
Definition oUMUL := 0x37.
Definition oUDIV := 0x38.
Definition oUMOD := 0x39.
Definition oULT := 0x3a.
Definition oUGTE := 0x3b.
Definition oUGT := 0x3c.
Definition oULTE := 0x3d.
Definition oXOR := 0x3e.
Definition oEND := 0x3f.
Definition oFLOAT := 0x70.
Definition oSETOP := 0x71.
Definition oLONGOP8 := 0x72.
Definition oOSOP := 0x73.
Definition oPUSHB := 0x74.
Definition oUPUSHB := 0x75.
Definition oJEQUZ := 0x90.
Definition oJNEQZ := 0x91.
Definition oJLTZ := 0x92.
Definition oJGTEZ := 0x93.
Definition oJGTZ := 0x94.
Definition oJLTEZ := 0x95.
Definition oJMP := 0x96.
Definition oJEQU := 0x98.
Definition oJNEQ := 0x99.
Definition oJLT := 0x9a.
Definition oJGTE := 0x9b.
Definition oJGT := 0x9c.
Definition oJLTE := 0x9d.
Definition oLD := 0xa0.
Definition oLDB := 0xa1.
Definition oULDB := 0xa2.
Definition oLDM := 0xa3.
Definition oST := 0xa4.
Definition oSTB := 0xa6.
Definition oSTM := 0xa7.
Definition oLDX := 0xa8.
Definition oLDXB := 0xa9.
Definition oULDXB := 0xaa.
Definition oLDXM := 0xab.
Definition oSTX := 0xac.
Definition oSTXB := 0xae.
Definition oSTXM := 0xaf.
Definition oLA := 0xb0.
Definition oLAC := 0xb1.
Definition oLAR := 0xb2.
Definition oPUSH := 0xb3.
Definition oINDS := 0xb4.
Definition oINCS := 0xb5.
Definition oSTRLIB := 0xb6.
Definition oSYSIO := 0xb7.
Definition oLAX := 0xb8.
Definition oJULT := 0xba.
Definition oJUGTE := 0xbb.
Definition oJUGT := 0xbc.
Definition oJULTE := 0xbd.
Definition oLABEL := 0xbf.
Definition oPCAL := 0xc8.
Definition oLDS := 0xe0.
Definition oLDSB := 0xe1.
Definition oULDSB := 0xe2.
Definition oLDSM := 0xe3.
Definition oSTS := 0xe4.
Definition oSTSB := 0xe6.
Definition oSTSM := 0xe7.
Definition oLDSX := 0xe8.
Definition oLDSXB := 0xe9.
Definition oULDSXB := 0xea.
Definition oLDSXM := 0xeb.
Definition oSTSX := 0xec.
Definition oSTSXB := 0xee.
Definition oSTSXM := 0xef.
Definition oLAS := 0xf0.
Definition oLASX := 0xf8.
Definition oLONGOP24 := 0x7f.
Definition oLINE := 0xff.

(** The opcodes executed by pexec8, pexec16, pexec24 and pexec32
    (insn16/libexec/libexec_run.c:272-1362), one constructor per case label,
    and the byte that selects it.  Bytes without a case label (including the
    pseudo operations oLABEL and oLINE) are illegal. *)

Inductive op8 :=
| NOP | NEG | ABS | INC | DEC | NOT | ADD | SUB | MUL | DIV
| MOD | SLL | SRL | SRA | OR | AND | EQUZ | NEQZ | LTZ | GTEZ
| GTZ | LTEZ | EQU | NEQ | LT | GTE | GT | LTE | LDI | LDIB
| ULDIB | LDIM | STI | STIB | STIM | DUP | XCHG | RET | UMUL | UDIV
| UMOD | ULT | UGTE | UGT | ULTE | XOR | END.

Definition decode_op8 (op : Z) : option op8 :=
  match op with
  | 0x00 => Some NOP | 0x01 => Some NEG | 0x02 => Some ABS | 0x03 => Some INC
  | 0x04 => Some DEC | 0x05 => Some NOT | 0x06 => Some ADD | 0x07 => Some SUB
  | 0x08 => Some MUL | 0x09 => Some DIV | 0x0a => Some MOD | 0x0b => Some SLL
  | 0x0c => Some SRL | 0x0d => Some SRA | 0x0e => Some OR | 0x0f => Some AND
  | 0x10 => Some EQUZ | 0x11 => Some NEQZ | 0x12 => Some LTZ | 0x13 => Some GTEZ
  | 0x14 => Some GTZ | 0x15 => Some LTEZ | 0x18 => Some EQU | 0x19 => Some NEQ
  | 0x1a => Some LT | 0x1b => Some GTE | 0x1c => Some GT | 0x1d => Some LTE
  | 0x20 => Some LDI | 0x21 => Some LDIB | 0x22 => Some ULDIB | 0x23 => Some LDIM
  | 0x24 => Some STI | 0x26 => Some STIB | 0x27 => Some STIM | 0x28 => Some DUP
  | 0x2a => Some XCHG | 0x2f => Some RET | 0x37 => Some UMUL | 0x38 => Some UDIV
  | 0x39 => Some UMOD | 0x3a => Some ULT | 0x3b => Some UGTE | 0x3c => Some UGT
  | 0x3d => Some ULTE | 0x3e => Some XOR | 0x3f => Some END
  | _ => None
  end.

Inductive op16 :=
| FLOAT | SETOP | LONGOP8 | OSOP | PUSHB | UPUSHB.

Definition decode_op16 (op : Z) : option op16 :=
  match op with
  | 0x70 => Some FLOAT | 0x71 => Some SETOP | 0x72 => Some LONGOP8 | 0x73 => Some OSOP
  | 0x74 => Some PUSHB | 0x75 => Some UPUSHB
  | _ => None
  end.

Inductive op24 :=
| JEQUZ | JNEQZ | JLTZ | JGTEZ | JGTZ | JLTEZ | JMP | JEQU | JNEQ | JLT
| JGTE | JGT | JLTE | LD | LDB | ULDB | LDM | ST | STB | STM
| LDX | LDXB | ULDXB | LDXM | STX | STXB | STXM | LA | LAC | LAR
| PUSH | INDS | INCS | STRLIB | SYSIO | LAX | JULT | JUGTE | JUGT | JULTE.

Definition decode_op24 (op : Z) : option op24 :=
  match op with
  | 0x90 => Some JEQUZ | 0x91 => Some JNEQZ | 0x92 => Some JLTZ | 0x93 => Some JGTEZ
  | 0x94 => Some JGTZ | 0x95 => Some JLTEZ | 0x96 => Some JMP | 0x98 => Some JEQU
  | 0x99 => Some JNEQ | 0x9a => Some JLT | 0x9b => Some JGTE | 0x9c => Some JGT
  | 0x9d => Some JLTE | 0xa0 => Some LD | 0xa1 => Some LDB | 0xa2 => Some ULDB
  | 0xa3 => Some LDM | 0xa4 => Some ST | 0xa6 => Some STB | 0xa7 => Some STM
  | 0xa8 => Some LDX | 0xa9 => Some LDXB | 0xaa => Some ULDXB | 0xab => Some LDXM
  | 0xac => Some STX | 0xae => Some STXB | 0xaf => Some STXM | 0xb0 => Some LA
  | 0xb1 => Some LAC | 0xb2 => Some LAR | 0xb3 => Some PUSH | 0xb4 => Some INDS
  | 0xb5 => Some INCS | 0xb6 => Some STRLIB | 0xb7 => Some SYSIO | 0xb8 => Some LAX
  | 0xba => Some JULT | 0xbb => Some JUGTE | 0xbc => Some JUGT | 0xbd => Some JULTE
  | _ => None
  end.

Inductive op32 :=
| PCAL | LDS | LDSB | ULDSB | LDSM | STS | STSB | STSM | LDSX | LDSXB
| ULDSXB | LDSXM | STSX | STSXB | STSXM | LAS | LASX.

Definition decode_op32 (op : Z) : option op32 :=
  match op with
  | 0xc8 => Some PCAL | 0xe0 => Some LDS | 0xe1 => Some LDSB | 0xe2 => Some ULDSB
  | 0xe3 => Some LDSM | 0xe4 => Some STS | 0xe6 => Some STSB | 0xe7 => Some STSM
  | 0xe8 => Some LDSX | 0xe9 => Some LDSXB | 0xea => Some ULDSXB | 0xeb => Some LDSXM
  | 0xec => Some STSX | 0xee => Some STSXB | 0xef => Some STSXM | 0xf0 => Some LAS
  | 0xf8 => Some LASX
  | _ => None
  end.

