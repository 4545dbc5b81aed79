(** Blocks, procedures and functions, from the statement part on: pas_Block,
    pas_ProcedureDeclaration and pas_FunctionDeclaration of pascal/pas_block.c,
    pas_CompoundStatement of pascal/pas_statement.c, pas_Initialization of
    pascal/pas_initializer.c, the end of pas_Program of pascal/pas_program.c.

    Simplified: the declarations of the block have been read; what they leave is
    given: the labels, g_dStack, the code of the nested procedures, the
    initializers.  Headings and declarations are in DeclModel.v, ConstModel.v.
    Not modelled ([SNotModelled]): initializers of files without a number, of
    strings, records, sets, reals and pointers; with them, the code that
    pas_Finalization generates.  Export of symbols and debug information. *)

From Coq Require Import ZArith Bool List.
From Verif Require Import Words State Opcodes Machine EncodeModel ExprModel StmtModel.
From Verif Require DeclModel.
Import ListNotations.
Open Scope Z_scope.

(** include/pas_errcodes.h:222-291 *)
Definition eBEGIN := 0x02.
Definition eSEMICOLON := 0x3a.
Definition ePERIOD := 0x30.
(** pascal/pas_tkndefs.h:57-61 *)
Definition tPERIOD := 0x2e.

(** ** Initial values: struct initializer_s, pas_initializer.c:82-120 *)

(** [IFile]: a file variable with a number; [IField]: a file in a record;
    [IValue]: v.baseType and the first two words of v.value, unsigned *)
Inductive initial := IFile (v : sym) (number : Z) | IField (v : sym) (offset : Z) | IValue (v : sym) (base low high : Z).

(** pas_AddVarInitializer, pas_block.c:2571-2718, for integers, characters and
    Booleans: the value is assigned to iOrdinal, an int16_t; [junk] is the next
    word of the local variable "initializer", which is not initialized. *)
Definition add_var_initializer (v : sym) (base value junk : Z) : initial := IValue v base (u16 value) (u16 junk).

(** include/pas_sysio.h:58 *)
Definition xALLOCFILE := 0x0001.
(** pas_BasicInitialization :188-325: file variables, :297-317 file fields *)
Definition basic_initialization (i : initial) (c : comp) : comp :=
  match i with
  | IFile v number => stack_ref oSTS v (data_op oPUSH number c)
  | IField v offset => stack_ref oSTS v (simple_op oADD (data_op oPUSH offset (stack_ref oLAS v (data_op oSYSIO xALLOCFILE c))))
  | IValue _ _ _ _ => c
  end.
(** pas_SetInitialValues :329-427 *)
Definition set_initial_value (i : initial) (c : comp) : sres :=
  match i with
  | IFile _ _ | IField _ _ => SDone c
  | IValue v base low high =>
    if is_word_var base || (base =? sSCALAR) then SDone (stack_ref oSTS v (data_op oPUSH (s16 low) c))
    else if is_byte_var base then SDone (stack_ref oSTSB v (data_op oPUSH (s16 low) c))
    else if is_long_var base then SDone (stack_ref oSTSM v (data_op oPUSH 4 (data_op oPUSH high (data_op oPUSH low c))))
    else SNotModelled
  end.
Fixpoint set_initial_values (l : list initial) (c : comp) : sres :=
  match l with [] => SDone c | i :: l => binds (set_initial_value i c) (set_initial_values l) end.
(** pas_Initialization :495-512 *)
Definition initialization (l : list initial) (c : comp) : sres :=
  set_initial_values l (fold_left (fun c i => basic_initialization i c) l c).

(** ** Blocks *)

(** pas_CompoundStatement, pas_statement.c:2318-2333; the loop is [statements] *)
Definition compound_statement (n : nat) (c : comp) : sres :=
  binds (statements n c) (fun c => SDone (expect tEND eEND c)).

(** The nested procedures in pas_DeclarationGroup, pas_block.c:3203-3265: [inner]
    is their code, if there are any.  At level 0 there is no jump over it: the
    program starts at the label. *)
Definition nested (label : Z) (inner : option (list opType)) (c : comp) : comp :=
  match inner with
  | None => c
  | Some code => fold_left (fun c p => append p c) code (if (0 <? label) && (0 <? g_level c) then data_op oJMP label c else c)
  end.

(** pas_Block, pas_block.c:2955-3099 *)
Definition block (n : nat) (label dstack : Z) (inner : option (list opType)) (inits : list initial) (c : comp) : sres :=
  let c := nested label inner c in
  let c := error_if (negb (token c =? tBEGIN)) eBEGIN c in
  let c := data_op oLABEL label c in
  let c := if dstack =? 0 then c else data_op oINDS (DeclModel.INT_ALIGNUP dstack) c in
  binds (initialization inits c) (fun c =>
  binds (compound_statement n c) (fun c =>
  SDone (if dstack =? 0 then c else data_op oINDS (- DeclModel.INT_ALIGNUP dstack) c))).

Definition with_level (l : Z) (c : comp) : comp :=
  mkComp (toks c) (out c) (errs c) (g_label c) l (g_continue c) (g_break c) (g_adjust c).

(** pas_ProcedureDeclaration :620-647 and pas_FunctionDeclaration :774-805, behind
    the heading: the level has been incremented *)
Definition routine (n : nat) (proc_label label dstack : Z) (inner : option (list opType)) (inits : list initial) (c : comp) : sres :=
  binds (block n label dstack inner inits (data_op oLABEL proc_label c)) (fun c =>
  let c := simple_op oRET c in
  SDone (expect tSEMICOLON eSEMICOLON (with_level (g_level c - 1) c))).

(** pas_Program, pas_program.c:159-164; the period is the last token. *)
Definition program_block (n : nat) (label dstack : Z) (inner : option (list opType)) (inits : list initial) (c : comp) : sres :=
  binds (block n label dstack inner inits c) (fun c =>
  SDone (simple_op oEND (error_if (negb (token c =? tPERIOD)) ePERIOD c))).
