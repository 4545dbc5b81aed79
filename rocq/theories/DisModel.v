(** The listing of P-code: insn16/libinsn/insn_disasm.c, insn_dislongop.c and the loop of
    insn16/plist/plist.c.  Definitions only. *)

From Coq Require Import ZArith Bool String Ascii List.
From Verif Require Import Words State Opcodes Machine EncodeModel SysioModel.
Import ListNotations.
Open Scope Z_scope.

(** The characters of a C string constant *)
Definition chars (s : string) : list Z := map (fun c => Z.of_N (N_of_ascii c)) (list_ascii_of_string s).

(** insn_disasm.c:61-75, the formats of the two arguments *)
Inductive fmt8 := NOARG8 | SHORTINT | SHORTWORD | FPOP | SETOP8 | OSOP8.
Inductive fmt16 := NOARG16 | HEX | DECIMAL | UDECIMAL | LABEL_DEC | XOP | LBOP | COMMENT.

(** insn_disasm.c:91 *)
Definition invOp : string := "Invalid Opcode".

(** insn_disasm.c:92-468 opTable, transcribed entry by entry *)
Definition opTable : list (string * fmt8 * fmt16) :=
  ([
   ("NOP  ", NOARG8, NOARG16); ("NEG  ", NOARG8, NOARG16); ("ABS  ", NOARG8, NOARG16); ("INC  ", NOARG8, NOARG16);
   ("DEC  ", NOARG8, NOARG16); ("NOT  ", NOARG8, NOARG16); ("ADD  ", NOARG8, NOARG16); ("SUB  ", NOARG8, NOARG16);
   ("MUL  ", NOARG8, NOARG16); ("DIV  ", NOARG8, NOARG16); ("MOD  ", NOARG8, NOARG16); ("SLL  ", NOARG8, NOARG16);
   ("SRL  ", NOARG8, NOARG16); ("SRA  ", NOARG8, NOARG16); ("OR   ", NOARG8, NOARG16); ("AND  ", NOARG8, NOARG16);
   ("EQUZ ", NOARG8, NOARG16); ("NEQZ ", NOARG8, NOARG16); ("LTZ  ", NOARG8, NOARG16); ("GTEZ ", NOARG8, NOARG16);
   ("GTZ  ", NOARG8, NOARG16); ("LTEZ ", NOARG8, NOARG16); (invOp, NOARG8, NOARG16); (invOp, NOARG8, NOARG16);
   ("EQU  ", NOARG8, NOARG16); ("NEQ  ", NOARG8, NOARG16); ("LT   ", NOARG8, NOARG16); ("GTE  ", NOARG8, NOARG16);
   ("GT   ", NOARG8, NOARG16); ("LTE  ", NOARG8, NOARG16); (invOp, NOARG8, NOARG16); (invOp, NOARG8, NOARG16);
   ("LDI  ", NOARG8, NOARG16); ("LDIB ", NOARG8, NOARG16); ("ULDIB", NOARG8, NOARG16); ("LDIM ", NOARG8, NOARG16);
   ("STI  ", NOARG8, NOARG16); (invOp, NOARG8, NOARG16); ("STIB ", NOARG8, NOARG16); ("STIM ", NOARG8, NOARG16);
   ("DUP  ", NOARG8, NOARG16); (invOp, NOARG8, NOARG16); ("XCHG ", NOARG8, NOARG16); (invOp, NOARG8, NOARG16);
   (invOp, NOARG8, NOARG16); (invOp, NOARG8, NOARG16); (invOp, NOARG8, NOARG16); ("RET  ", NOARG8, NOARG16);
   (invOp, NOARG8, NOARG16); (invOp, NOARG8, NOARG16); (invOp, NOARG8, NOARG16); (invOp, NOARG8, NOARG16);
   (invOp, NOARG8, NOARG16); (invOp, NOARG8, NOARG16); (invOp, NOARG8, NOARG16); ("UMUL ", NOARG8, NOARG16);
   ("UDIV ", NOARG8, NOARG16); ("UMOD ", NOARG8, NOARG16); ("ULT  ", NOARG8, NOARG16); ("UGTE ", NOARG8, NOARG16);
   ("UGT  ", NOARG8, NOARG16); ("ULTE ", NOARG8, NOARG16); ("XOR  ", NOARG8, NOARG16); ("END  ", NOARG8, NOARG16);
   (invOp, NOARG8, NOARG16); (invOp, NOARG8, NOARG16); (invOp, NOARG8, NOARG16); (invOp, NOARG8, NOARG16);
   (invOp, NOARG8, NOARG16); (invOp, NOARG8, NOARG16); (invOp, NOARG8, NOARG16); (invOp, NOARG8, NOARG16);
   (invOp, NOARG8, NOARG16); (invOp, NOARG8, NOARG16); (invOp, NOARG8, NOARG16); (invOp, NOARG8, NOARG16);
   (invOp, NOARG8, NOARG16); (invOp, NOARG8, NOARG16); (invOp, NOARG8, NOARG16); (invOp, NOARG8, NOARG16);
   (invOp, NOARG8, NOARG16); (invOp, NOARG8, NOARG16); (invOp, NOARG8, NOARG16); (invOp, NOARG8, NOARG16);
   (invOp, NOARG8, NOARG16); (invOp, NOARG8, NOARG16); (invOp, NOARG8, NOARG16); (invOp, NOARG8, NOARG16);
   (invOp, NOARG8, NOARG16); (invOp, NOARG8, NOARG16); (invOp, NOARG8, NOARG16); (invOp, NOARG8, NOARG16);
   (invOp, NOARG8, NOARG16); (invOp, NOARG8, NOARG16); (invOp, NOARG8, NOARG16); (invOp, NOARG8, NOARG16);
   (invOp, NOARG8, NOARG16); (invOp, NOARG8, NOARG16); (invOp, NOARG8, NOARG16); (invOp, NOARG8, NOARG16);
   (invOp, NOARG8, NOARG16); (invOp, NOARG8, NOARG16); (invOp, NOARG8, NOARG16); (invOp, NOARG8, NOARG16);
   (invOp, NOARG8, NOARG16); (invOp, NOARG8, NOARG16); (invOp, NOARG8, NOARG16); (invOp, NOARG8, NOARG16);
   (invOp, NOARG8, NOARG16); (invOp, NOARG8, NOARG16); (invOp, NOARG8, NOARG16); (invOp, NOARG8, NOARG16);
   ("FLOAT", FPOP, NOARG16); ("SETOP", SETOP8, NOARG16); (invOp, NOARG8, NOARG16); ("OSOP", OSOP8, NOARG16);
   ("PUSHB", SHORTINT, NOARG16); ("UPUSHB", SHORTWORD, NOARG16); (invOp, NOARG8, NOARG16); (invOp, NOARG8, NOARG16);
   (invOp, NOARG8, NOARG16); (invOp, NOARG8, NOARG16); (invOp, NOARG8, NOARG16); (invOp, NOARG8, NOARG16);
   (invOp, NOARG8, NOARG16); (invOp, NOARG8, NOARG16); (invOp, NOARG8, NOARG16); (invOp, NOARG8, NOARG16);
   (invOp, NOARG8, NOARG16); (invOp, NOARG8, NOARG16); (invOp, NOARG8, NOARG16); (invOp, NOARG8, NOARG16);
   (invOp, NOARG8, NOARG16); (invOp, NOARG8, NOARG16); (invOp, NOARG8, NOARG16); (invOp, NOARG8, NOARG16);
   (invOp, NOARG8, NOARG16); (invOp, NOARG8, NOARG16); (invOp, NOARG8, NOARG16); (invOp, NOARG8, NOARG16);
   (invOp, NOARG8, NOARG16); (invOp, NOARG8, NOARG16); (invOp, NOARG8, NOARG16); (invOp, NOARG8, NOARG16);
   ("JEQUZ", NOARG8, HEX); ("JNEQZ", NOARG8, HEX); ("JLTZ ", NOARG8, HEX); ("JGTEZ", NOARG8, HEX);
   ("JGTZ ", NOARG8, HEX); ("JLTEZ", NOARG8, HEX); ("JMP  ", NOARG8, HEX); (invOp, NOARG8, NOARG16);
   ("JEQU ", NOARG8, HEX); ("JNEQ ", NOARG8, HEX); ("JLT  ", NOARG8, HEX); ("JGTE ", NOARG8, HEX);
   ("JGT  ", NOARG8, HEX); ("JLTE ", NOARG8, HEX); (invOp, NOARG8, NOARG16); (invOp, NOARG8, NOARG16);
   ("LD   ", NOARG8, UDECIMAL); ("LDB  ", NOARG8, UDECIMAL); ("ULDB ", NOARG8, UDECIMAL); ("LDM  ", NOARG8, UDECIMAL);
   ("ST   ", NOARG8, UDECIMAL); (invOp, NOARG8, NOARG16); ("STB  ", NOARG8, UDECIMAL); ("STM  ", NOARG8, UDECIMAL);
   ("LDX  ", NOARG8, UDECIMAL); ("LDXB ", NOARG8, UDECIMAL); ("ULDXB", NOARG8, UDECIMAL); ("LDXM ", NOARG8, UDECIMAL);
   ("STX  ", NOARG8, UDECIMAL); (invOp, NOARG8, NOARG16); ("STXB ", NOARG8, UDECIMAL); ("STXM ", NOARG8, UDECIMAL);
   ("LA   ", NOARG8, UDECIMAL); ("LAC  ", NOARG8, HEX); ("LAR  ", NOARG8, DECIMAL); ("PUSH ", NOARG8, DECIMAL);
   ("INDS ", NOARG8, DECIMAL); ("INCS ", NOARG8, DECIMAL); ("LIB  ", NOARG8, LBOP); ("SYSIO", NOARG8, XOP);
   ("LAX  ", NOARG8, UDECIMAL); (invOp, NOARG8, NOARG16); ("JULT ", NOARG8, HEX); ("JUGTE", NOARG8, HEX);
   ("JUGT ", NOARG8, HEX); ("JULTE", NOARG8, HEX); (invOp, NOARG8, NOARG16); ("LABEL", NOARG8, LABEL_DEC);
   (invOp, NOARG8, NOARG16); (invOp, NOARG8, NOARG16); (invOp, NOARG8, NOARG16); (invOp, NOARG8, NOARG16);
   (invOp, NOARG8, NOARG16); (invOp, NOARG8, NOARG16); (invOp, NOARG8, NOARG16); (invOp, NOARG8, NOARG16);
   ("PCAL ", SHORTINT, HEX); (invOp, NOARG8, NOARG16); (invOp, NOARG8, NOARG16); (invOp, NOARG8, NOARG16);
   (invOp, NOARG8, NOARG16); (invOp, NOARG8, NOARG16); (invOp, NOARG8, NOARG16); (invOp, NOARG8, NOARG16);
   (invOp, NOARG8, NOARG16); (invOp, NOARG8, NOARG16); (invOp, NOARG8, NOARG16); (invOp, NOARG8, NOARG16);
   (invOp, NOARG8, NOARG16); (invOp, NOARG8, NOARG16); (invOp, NOARG8, NOARG16); (invOp, NOARG8, NOARG16);
   (invOp, NOARG8, NOARG16); (invOp, NOARG8, NOARG16); (invOp, NOARG8, NOARG16); (invOp, NOARG8, NOARG16);
   (invOp, NOARG8, NOARG16); (invOp, NOARG8, NOARG16); (invOp, NOARG8, NOARG16); (invOp, NOARG8, NOARG16);
   ("LDS  ", SHORTINT, DECIMAL); ("LDSB ", SHORTINT, DECIMAL); ("ULDSB", SHORTINT, DECIMAL); ("LDSM ", SHORTINT, DECIMAL);
   ("STS  ", SHORTINT, DECIMAL); (invOp, NOARG8, NOARG16); ("STSB ", SHORTINT, DECIMAL); ("STSM ", SHORTINT, DECIMAL);
   ("LDSX ", SHORTINT, DECIMAL); ("LDSXB", SHORTINT, DECIMAL); ("ULDSXB", SHORTINT, DECIMAL); ("LDSXM", SHORTINT, DECIMAL);
   ("STSX ", SHORTINT, DECIMAL); (invOp, NOARG8, NOARG16); ("STSXB", SHORTINT, DECIMAL); ("STSXM", SHORTINT, DECIMAL);
   ("LAS  ", SHORTINT, DECIMAL); (invOp, NOARG8, NOARG16); (invOp, NOARG8, NOARG16); (invOp, NOARG8, NOARG16);
   (invOp, NOARG8, NOARG16); (invOp, NOARG8, NOARG16); (invOp, NOARG8, NOARG16); (invOp, NOARG8, NOARG16);
   ("LASX ", SHORTINT, DECIMAL); (invOp, NOARG8, NOARG16); (invOp, NOARG8, NOARG16); (invOp, NOARG8, NOARG16);
   (invOp, NOARG8, NOARG16); (invOp, NOARG8, NOARG16); (invOp, NOARG8, NOARG16); ("LINE ", SHORTWORD, COMMENT)
   ])%string.

(** insn_disasm.c:470-524: the names of the sub-functions *)
Definition invXOp : string := "Invalid SYSIO".
Definition xName : list string :=
  ([
   invXOp; "ALLOCFILE"; "FREEFILE"; "EOF"; "EOLN"; "FILEPOS";
   "FILESIZE"; "SEEK"; "SEEKEOF"; "SEEKEOLN"; "ASSIGNFILE"; "RESET";
   "RESETR"; "REWRITE"; "REWRITER"; "APPEND"; "CLOSEFILE"; "READLN";
   "READPG"; "READBIN"; "READINT"; "READCHR"; "READSTR"; "READRL";
   "WRITELN"; "WRITEPG"; "WRITEBIN"; "WRITEINT"; "WRITEWORD"; "WRITELONG";
   "WRITEULONG"; "WRITECHR"; "WRITESTR"; "WRITERL"; "FLUSH"; "CHDIR";
   "GETDIR"; "MKDIR"; "RMDIR"; "OPENDIR"; "READDIR"; "FILEINFO";
   "REWINDDIR"; "CLOSEDIR"
   ])%string.
Definition invSetOp : string := "Invalid SETOP".
Definition sName : list string :=
  ([
   invSetOp; "EMPTY"; "INTERSECTION"; "UNION"; "DIFFERENCE"; "SYMDIFF";
   "EQUAL"; "NEQUAL"; "CONTAINS"; "MEMBER"; "INCLUDE"; "EXCLUDE";
   "CARD"; "SINGLETON"; "SUBRANGE"
   ])%string.
Definition invOSOp : string := "Invalid OSOP".
Definition osName : list string :=
  ([
   "EXIT"; "NEW"; "DISPOSE"; "GETENV"; "SPAWN"
   ])%string.
Definition invLbOp : string := "Invalid runtime code".
Definition lbName : list string :=
  ([
   "STRCPY"; "STRCPY2"; "STRCPYX"; "STRCPYX2"; "BSTR2STR"; "STR2BSTR";
   "STR2BSTRX"; "STRINIT"; "STRTMP"; "STRDUP"; "MKSTKC"; "STRCAT";
   "STRCATC"; "STRCMP"; "STRLEN"; "COPYSUBSTR"; "FINDSUBSTR"; "INSERTSTR";
   "DELSUBSTR"; "FILLCHAR "; "CHARAT"; "INTSTR"; "WORDSTR"; "LONGSTR";
   "ULONGSTR "; "REALSTR"; "VAL"
   ])%string.
Definition invFpOp : string := "Invalid FP Operation".
Definition fpName : list string :=
  ([
   invFpOp; "FLOAT"; "TRUNC"; "ROUND"; "ADD"; "SUB";
   "MUL"; "DIV"; "MOD"; invFpOp; "EQU"; "NEQ";
   "LT"; "GTE"; "GT"; "LTE"; "NEG"; "ABS";
   "SQR"; "SQRT"; "SIN"; "COS"; "ATAN"; "LN";
   "EXP"
   ])%string.

(** MAX_XOP, MAX_SETOP, MAX_OSOP, MAX_LBOP, MAX_FOP and fpMASK:
    include/pas_sysio.h, pas_setops.h, pas_oslib.h, pas_stringlib.h, pas_fpops.h *)
Definition MAX_XOP : Z := 0x2c.
Definition MAX_SETOP : Z := 0x0f.
Definition MAX_OSOP : Z := 0x05.
Definition MAX_LBOP : Z := 0x1b.
Definition MAX_FOP : Z := 0x19.
Definition fpMASK : Z := 0x3f.

(** A name of a table if the index is below the limit, else the name for invalid codes.  Reading
    beyond the table, which C does not define, is [None]. *)
Definition name_of (t : list string) (limit i : Z) (inv : string) : option (list Z) :=
  if i <? limit then option_map chars (nth_error t (Z.to_nat i)) else Some (chars inv).

(** A hexadecimal digit, and the conversions "%04x" of a uint16_t and "%08x" of a uint32_t *)
Definition hex (d : Z) : Z := if d <? 10 then 48 + d else 87 + d.
Definition hex4 (v : Z) : list Z :=
  [hex (v / 4096 mod 16); hex (v / 256 mod 16); hex (v / 16 mod 16); hex (v mod 16)].
Definition hex8 (v : Z) : list Z := hex4 (v / 65536 mod 65536) ++ hex4 (v mod 65536).

(** libpas/psignextend8.c:52-56 signExtend8 *)
Definition sign8 (v : Z) : Z := if v <? 128 then v else v - 256.

(** insn_disasm.c:583-632, the 8-bit argument *)
Definition show8 (f : fmt8) (a1 : Z) : option (list Z) :=
  match f with
  | SHORTWORD => Some (decimal a1)
  | SHORTINT => Some (decimal (sign8 a1))
  | FPOP => name_of fpName MAX_FOP (Z.land a1 fpMASK) invFpOp
  | SETOP8 => name_of sName MAX_SETOP a1 invSetOp
  | OSOP8 => name_of osName MAX_OSOP a1 invOSOp
  | NOARG8 => Some []
  end.

(** insn_disasm.c:636-690, the 16-bit argument *)
Definition show16 (f : fmt16) (a2 : Z) : option (list Z) :=
  match f with
  | DECIMAL | COMMENT => Some (decimal (s16 a2))
  | HEX => Some (chars "0x" ++ hex4 a2)
  | UDECIMAL => Some (decimal a2)
  | XOP => name_of xName MAX_XOP a2 invXOp
  | LBOP => name_of lbName MAX_LBOP a2 invLbOp
  | NOARG16 | LABEL_DEC => Some []
  end.

Definition cat (a b : option (list Z)) : option (list Z) :=
  match a, b with Some x, Some y => Some (x ++ y) | _, _ => None end.

(** insn_disasm.c:528-696 insn_DisassemblePCode: the text of the line with its newline *)
Definition disasm (o : opType) : option (list Z) :=
  match nth_error opTable (Z.to_nat (op o)) with
  | None => None
  | Some (name, f8, f16) =>
    let prefix := match f16 with
                  | LABEL_DEC => chars "L" ++ hex4 (arg2 o) ++ chars ":  "
                  | COMMENT => chars "; "
                  | _ => chars "        "
                  end in
    let body :=
      match f16 with
      | COMMENT =>
        Some (chars name ++ chars " " ++
              (if has8 (op o) then
                 decimal (arg1 o) ++ (if has16 (op o) then chars ":" ++ decimal (arg2 o) else [])
               else if has16 (op o) then decimal (arg2 o) else []))
      | _ =>
        cat (Some (match f16 with LABEL_DEC => [] | _ => chars name ++ chars " " end))
          (cat (if has8 (op o) then show8 f8 (arg1 o) else Some [])
               (if has16 (op o) then cat (Some (if has8 (op o) then chars ", " else [])) (show16 f16 (arg2 o))
                else Some []))
      end in
    cat (cat (Some prefix) body) (Some (chars (String "010" EmptyString)))
  end.

(** insn_dislongop.c:88-159 g_longOpTable8, all entries without a 16-bit argument, and :168-195
    g_longOpTable24, all entries with HEX *)
Definition longTable8 : list string :=
  ([
   "DNOP"; "DNEG  "; "DABS  "; "DINC  "; "DDEC  "; "DNOT  ";
   "DADD  "; "DSUB  "; "DMUL  "; "DDIV  "; "DMOD  "; "DSLL  ";
   "DSRL  "; "DSRA  "; "DOR   "; "DAND  "; "DEQUZ "; "DNEQZ ";
   "DLTZ  "; "DGTEZ "; "DGTZ  "; "DLTEZ "; "DEQU  "; "DNEQ  ";
   "DLT   "; "DGTE  "; "DGT   "; "DLTE  "; "DDUP  "; "DXCHG ";
   "CNVD  "; "UCNVD "; "DCNV  "; "DUMUL "; "DUDIV "; "DUMOD ";
   "DULT  "; "DUGTE "; "DUGT  "; "DULTE "; "DXOR  "
   ])%string.
Definition longTable24 : list string :=
  ([
   "DJEQUZ"; "DJNEQZ"; "DJLTZ "; "DJGTEZ"; "DJGTZ "; "DJLTEZ";
   "DJEQU "; "DJNEQ "; "DJLT  "; "DJGTE "; "DJGT  "; "DJLTE ";
   "DJULT "; "DJUGTE"; "DUJGT "; "DUJLTE"
   ])%string.

(** insn_dislongop.c:202-256 insn_DisassembleLongOpCode.  An index beyond the first table goes on
    into the next case of the switch. *)
Definition disasm_long (o : opType) : option (list Z) :=
  let index := Z.to_nat (Z.land (arg1 o) 0x3f) in
  let second := nth_error longTable24 index in
  let info := match has8 (op o), has16 (op o) with
              | true, false => match nth_error longTable8 index with
                               | Some n => Some (n, NOARG16)
                               | None => option_map (fun n => (n, HEX)) second
                               end
              | true, true => option_map (fun n => (n, HEX)) second
              | false, _ => None
              end in
  match info with
  | None => Some (chars "        " ++ chars invOp ++ [10])
  | Some (name, f) =>
    Some (chars "        " ++ chars name ++ chars " " ++
          (if has16 (op o) then match f with HEX => chars "0x" ++ hex4 (arg2 o) | _ => [] end else []) ++ [10])
  end.

(** plist.c:275-283 (and libexec/libexec_debug.c:407-411): which of the two *)
Definition line (o : opType) : option (list Z) :=
  if (op o =? oLONGOP8) || (op o =? oLONGOP24) then disasm_long o else disasm o.

(** plist.c:215-292 plist_DumpProgramData for a file without line numbers.  The program counter
    is a uint32_t.  [None]: an undefined table access, or the fuel is exhausted. *)
Fixpoint list_program (n : nat) (pc : Z) (l : list Z) : option (list Z) :=
  match n with
  | O => None
  | S n' =>
    let '(c, l1) := getbyte l in
    if c =? -1 then Some []
    else
      let '(a1, l2) := if has8 c then let '(x, r) := getbyte l1 in (u8 x, r) else (0, l1) in
      let '(a2, l3) :=
        if has16 c then
          let '(h, r) := getbyte l2 in let '(x, r') := getbyte r in
          (u16 (Z.lor (u16 (Z.shiftl h 8)) x), r')
        else (0, l2) in
      cat (cat (Some (hex8 pc ++ chars " ")) (line (mkOp c a1 a2)))
          (list_program n' (u32 (pc + op_size c)) l3)
  end.
