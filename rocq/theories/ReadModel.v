(** Read and ReadLn: pascal/pas_procedure.c:415-665.  Definitions only.

    Simplified: as in ActModel.v and WriteModel.v.  Not modelled: binary files, files
    that are VAR parameters, pointers to files, real numbers, strings, and variables
    that pas_PointerFactor treats as complex. *)

From Coq Require Import ZArith Bool List.
From Verif Require Import Words Opcodes ExprModel StmtModel ArrModel ActModel WriteModel.
From Verif Require SysioModel.
Import ListNotations.
Open Scope Z_scope.

(** pascal/pas_tkndefs.h:233-234 *)
Definition txREAD := 0x8f.
Definition txREADLN := 0x90.

(** pas_ReadText :609-665; pas_VarParameter with exprUnknown does not compare types *)
Definition read_text (n : nat) (c : comp) : ares :=
  match pointer_factor n (simple_op oDUP c) with
  | Done t c =>
    ADone (if teq t xInteger then io_op SysioModel.xREAD_INT c
           else if teq t xChar then io_op SysioModel.xREAD_CHAR c
           else error eINVARG c)
  | NoFuel => ANoFuel
  | NotModelled => ANotModelled
  end.

(** pas_ReadProcCommon :565-594 for a text file *)
Fixpoint read_common (n : nat) (c : comp) : ares :=
  match n with
  | O => ANoFuel
  | S n' => binda (read_text n' c) (fun c =>
      if (token c =? tCOLON) || (token c =? tCOMMA) then read_common n' (getToken c) else ADone c)
  end.

Section Read.
  (** g_inputFile *)
  Variable inf : sym.

  (** pas_ReadProc :415-466; READ is the current token.  sINT_SIZE is 2. *)
  Definition read_proc (n : nat) (c : comp) : ares :=
    let c := expect tLPAREN eLPAREN (getToken c) in
    let c := error_if (token c =? tRPAREN) eNOWRITEPARM c in
    match file_number inf c with
    | Some (true, c) =>
      let c := if token c =? tCOMMA then getToken c else c in
      binda (read_common n c) (fun c => ADone (expect tRPAREN eRPAREN (data_op oINDS (-2) c)))
    | _ => ANotModelled
    end.

  (** pas_ReadlnProc :470-540 *)
  Definition readln_proc (n : nat) (c : comp) : ares :=
    let c := getToken c in
    binda
      (if token c =? tLPAREN then
         let c := getToken c in
         binda
           (if token c =? tRPAREN then ADone (stack_ref oLDS inf c)
            else match file_number inf c with
                 | Some (text, c) =>
                   let c := if token c =? tCOMMA then getToken c else c in
                   read_common n (error_if (negb text) eINVFILE c)
                 | None => ANotModelled
                 end)
           (fun c => ADone (expect tRPAREN eRPAREN c))
       else ADone (stack_ref oLDS inf c))
      (fun c => ADone (io_op SysioModel.xREADLN c)).

  (** pas_StandardProcedure :2365-2508, these two *)
  Definition read_statement (n : nat) (c : comp) : ares :=
    if negb (token c =? tSTDPROC) then ANotModelled
    else if tsub (cur c) =? txREAD then read_proc n c
    else if tsub (cur c) =? txREADLN then readln_proc n c
    else ANotModelled.
End Read.
