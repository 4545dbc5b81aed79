(** Write and WriteLn: pascal/pas_procedure.c:159-370, 988-1390 and 2512-2533, and the
    execution of their code.  Definitions only.

    Simplified: as in ExprModel.v; [str] is g_tokenString of a token; of a string
    constant that has a name, roOffset and roSize are kept as vOffset and vSize of its
    symbol; the byte that aligns a string in the section of constants has the value 0
    (it is not written to by poffAddRoDataString).  Not modelled: binary files, files
    that are VAR parameters, pointers to files, arrays. *)

From Coq Require Import ZArith Bool List.
From Verif Require Import Words State Opcodes Machine EncodeModel ExprModel StmtModel.
From Verif Require SysioModel.
Import ListNotations.
Open Scope Z_scope.

(** pascal/pas_tkndefs.h:49, 83-104, 240-241, include/pas_errcodes.h:249-304 *)
Definition tSTRING_CONST := 0x06.
Definition sFILE := 0x45.
Definition sTEXTFILE := 0x46.
Definition sSTRING_CONST := 0x51.
Definition sPOINTER := 0x52.
Definition sARRAY := 0x57.
Definition sVAR_PARM := 0x5a.
Definition txWRITE := 0x96.
Definition txWRITELN := 0x97.
Definition eINVFILE := 0x1b.
Definition eWRITEPARM := 0x4b.
Definition eNOWRITEPARM := 0x4c.
Definition eBADFIELDWIDTH := 0x4e.
Definition eBADPRECISION := 0x4f.

(** The compiler and the section of constants *)
Inductive wres := WDone (c : comp) (ro : list Z) | WNoFuel | WNotModelled.
Definition bindw (r : wres) (k : comp -> list Z -> wres) : wres :=
  match r with WDone c ro => k c ro | WNoFuel => WNoFuel | WNotModelled => WNotModelled end.
Definition of_res (r : res) (k : etype -> comp -> wres) : wres :=
  match r with Done t c => k t c | NoFuel => WNoFuel | NotModelled => WNotModelled end.

(** libpoff/pfwrodata.c:147-176 poffAddRoDataString; INT_ALIGNUP rounds up to a
    multiple of 2 *)
Definition add_string (l ro : list Z) : list Z :=
  ro ++ l ++ [0] ++ (if Z.odd (Z.of_nat (length l)) then [] else [0]).

(** pas_GenerateIoOperation, pascal/pas_codegen.c:203-206 *)
Definition io_op (f : Z) : comp -> comp := data_op oSYSIO f.

(** pas_WriteFieldWidth :1338-1392 *)
Definition write_width (n : nat) (ro : list Z) (c : comp) : wres :=
  if token c =? tCOLON then
    of_res (expression n xShortInteger (getToken c)) (fun t c =>
    let c := error_if (negb (teq t xShortInteger)) eBADFIELDWIDTH c in
    let c := simple_op oSLL (data_op oPUSH 8 c) in
    if token c =? tCOLON then
      of_res (expression n xShortInteger (getToken c)) (fun t c =>
      let c := error_if (negb (teq t xShortInteger)) eBADPRECISION c in
      WDone (simple_op oOR c) ro)
    else WDone c ro)
  else WDone (data_op oPUSH 0 c) ro.

(** The switch on the type :1278-1332; real numbers and strings do not occur *)
Definition write_op (t : etype) (c : comp) : comp :=
  if among t signed16s then io_op SysioModel.xWRITE_INT c
  else if among t words16s then io_op SysioModel.xWRITE_WORD c
  else if teq t xLongInteger then io_op SysioModel.xWRITE_LONGINT c
  else if teq t xLongWord then io_op SysioModel.xWRITE_LONGWORD c
  else if teq t xChar then io_op SysioModel.xWRITE_CHAR c
  else error eWRITEPARM c.

Section Write.
  Variable str : tok -> list Z.
  (** g_outputFile *)
  Variable outf : sym.

  (** The two kinds of string constants :1170-1217: the field width is looked for before
      the string is skipped *)
  Definition write_string (n : nat) (size offset : Z) (ro : list Z) (c : comp) : wres :=
    let c := data_op oPUSH size (data_op oLAC (u16 offset) (data_op oPUSH size (simple_op oDUP c))) in
    bindw (write_width n ro c) (fun c ro => WDone (getToken (io_op SysioModel.xWRITE_STRING c)) ro).

  (** pas_WriteText :1152-1334 *)
  Definition write_text (n : nat) (ro : list Z) (c : comp) : wres :=
    if token c =? tSTRING_CONST then
      let l := str (cur c) in
      write_string n (Z.of_nat (length l)) (Z.of_nat (length ro)) (add_string l ro) c
    else if token c =? sSTRING_CONST then
      write_string n (u16 (vSize (tsym (cur c)))) (u16 (vOffset (tsym (cur c)))) ro c
    else if token c =? sARRAY then WNotModelled
    else
      of_res (expression n xUnknown (simple_op oDUP c)) (fun t c =>
      bindw (write_width n ro c) (fun c ro => WDone (write_op t c) ro)).

  (** pas_WriteProcCommon :1113-1148 for a text file *)
  Fixpoint write_common (n : nat) (ro : list Z) (c : comp) : wres :=
    match n with
    | O => WNoFuel
    | S n' => bindw (write_text n' ro c) (fun c ro => if token c =? tCOMMA then write_common n' ro (getToken c) else WDone c ro)
    end.

  (** pas_GenerateFileNumber :2512-2533 with pas_SimplifyFileNumber :159-345 and
      pas_DefaultFileNumber :349-372; the kind of a symbol is the token.  The result is
      whether it is a text file. *)
  Definition file_number (c : comp) : option (bool * comp) :=
    if existsb (Z.eqb (token c)) [sPOINTER; sVAR_PARM; sARRAY] then None
    else if (token c =? sFILE) || (token c =? sTEXTFILE) then
      Some (token c =? sTEXTFILE, getToken (stack_ref oLDS (tsym (cur c)) c))
    else Some (true, stack_ref oLDS outf c).

  (** pas_WriteProc :988-1036; WRITE is the current token.  sINT_SIZE is 2. *)
  Definition write_proc (n : nat) (ro : list Z) (c : comp) : wres :=
    let c := expect tLPAREN eLPAREN (getToken c) in
    let c := error_if (token c =? tRPAREN) eNOWRITEPARM c in
    match file_number c with
    | Some (true, c) =>
      let c := if token c =? tCOMMA then getToken c else c in
      bindw (write_common n ro c) (fun c ro =>
      WDone (expect tRPAREN eRPAREN (data_op oINDS (-2) c)) ro)
    | _ => WNotModelled
    end.

  (** pas_WritelnProc :1040-1109 *)
  Definition writeln_proc (n : nat) (ro : list Z) (c : comp) : wres :=
    let c := getToken c in
    bindw
      (if token c =? tLPAREN then
         let c := getToken c in
         bindw
           (if token c =? tRPAREN then WDone (stack_ref oLDS outf c) ro
            else match file_number c with
                 | Some (text, c) =>
                   let c := if token c =? tCOMMA then getToken c else c in
                   write_common n ro (error_if (negb text) eINVFILE c)
                 | None => WNotModelled
                 end)
           (fun c ro => WDone (expect tRPAREN eRPAREN c) ro)
       else WDone (stack_ref oLDS outf c) ro)
      (fun c ro => WDone (io_op SysioModel.xWRITELN c) ro).

  (** pas_StandardProcedure :2365-2508, these two *)
  Definition write_statement (n : nat) (ro : list Z) (c : comp) : wres :=
    if negb (token c =? tSTDPROC) then WNotModelled
    else if tsub (cur c) =? txWRITE then write_proc n ro c
    else if tsub (cur c) =? txWRITELN then writeln_proc n ro c
    else WNotModelled.
End Write.

(** ** Execution of instructions one after the other: libexec_run.c:1109-1111 for SYSIO.
    An error of a system I/O function ends the program. *)
Definition io_insn (e : SysioModel.env) (p : opType) (s : st) (t : SysioModel.io) : option (st * SysioModel.io) :=
  if op p =? oSYSIO then
    match SysioModel.sysio e s t (arg2 p) with
    | SysioModel.SR code s' t' => if code =? eNOERROR then Some (with_pc s' (u16 (pc s + 3)), t') else None
    | _ => None
    end
  else match exec_insn s p with Ok s' => Some (s', t) | _ => None end.
Fixpoint exec_io (e : SysioModel.env) (ps : list opType) (s : st) (t : SysioModel.io) : option (st * SysioModel.io) :=
  match ps with
  | [] => Some (s, t)
  | p :: r => match io_insn e p s t with Some (s', t') => exec_io e r s' t' | None => None end
  end.
