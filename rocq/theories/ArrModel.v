(** Elements of arrays: pas_ArrayIndex and the sARRAY branches of
    pas_SimpleFactor (pascal/pas_expression.c) and pas_SimpleAssignment
    (pascal/pas_statement.c), for variables of array types.

    The types are entries of the symbol table of DeclModel.v, numbered from 0; a
    NULL pointer is [None].  Simplified: the elements are numbers, characters or
    truth values (or subranges of these); no VAR parameters, no pointers, no
    records; an index is an expression as in ExprModel.v, thus without array
    elements in it. *)

From Coq Require Import ZArith Bool List.
From Verif Require Import Words Opcodes Machine ExprModel StmtModel.
From Verif Require DeclModel.
Import ListNotations.
Open Scope Z_scope.

(** pascal/pas_tkndefs.h:47-140, include/pas_errcodes.h:222-296 *)
Definition tCOMMA := 0x2c.
Definition tLBRACK := 0x5b.
Definition tRBRACK := 0x5d.
Definition sSCALAR := 0x53.
Definition sSUBRANGE := 0x55.
Definition eHUH := 0x0d.
Definition eLBRACKET := 0x27.
Definition eRBRACKET := 0x36.
Definition eTOOMANYINDICES := 0x53.

Inductive ares := ADone (c : comp) | ANoFuel | ANotModelled | AUndefined.
Definition binda (r : ares) (k : comp -> ares) : ares :=
  match r with ADone c => k c | _ => r end.

(** The type at [p]: sKind is sTYPE *)
Definition type_of (l : list DeclModel.sym) (p : nat) : option DeclModel.tyrec :=
  match nth_error l p with
  | Some s => match DeclModel.sParm s with
              | DeclModel.PType t => if DeclModel.sKind s =? sTYPE then Some t else None
              | _ => None
              end
  | None => None
  end.

(** pas_expression.c:4233-4259: the type of an index expression,
    pas_MapVariable2ExprType :4481-4555 *)
Definition index_type (t : DeclModel.tyrec) : option etype :=
  let k := if DeclModel.tType t =? sSUBRANGE then DeclModel.tSub t else DeclModel.tType t in
  if k =? sSUBRANGE then Some xInteger else map_type k.

(** The zero-based index times the distance of neighbours, :4272-4302;
    offset and elemSize are uint16_t *)
Definition scale (t : DeclModel.tyrec) (dimension : Z) (c : comp) : comp :=
  let offset := u16 (DeclModel.tMin t) in
  let c := if offset =? 0 then c else simple_op oSUB (data_op oPUSH offset c) in
  let elemSize := u16 (DeclModel.tSize t) in
  let c := if elemSize =? 1 then c else simple_op oMUL (data_op oPUSH elemSize c) in
  if 1 <? dimension then simple_op oADD c else c.

(** pas_ArrayIndex :4196-4310: the loop from the [dimension]-th index on, whose
    type is [q].  After the errors eTOOMANYINDICES and eHUH the pointer is used
    all the same. *)
Fixpoint index_loop (n : nat) (l : list DeclModel.sym) (dims : Z) (q : option nat) (dimension : Z) (c : comp)
  {struct n} : ares :=
  match n with
  | O => ANoFuel
  | S n' =>
    let c := if dims <? dimension then error eTOOMANYINDICES c
             else match q with None => error eHUH c | Some _ => c end in
    match q with
    | None => AUndefined
    | Some p =>
      match type_of l p with
      | None => ANotModelled
      | Some t =>
        match index_type t with
        | None => ANotModelled
        | Some ty =>
          match expression n' ty (getToken c) with
          | NoFuel => ANoFuel
          | NotModelled => ANotModelled
          | Done _ c =>
            let c := scale t dimension c in
            if token c =? tCOMMA then index_loop n' l dims (DeclModel.tIdx t) (u16 (dimension + 1)) c
            else ADone (expect tRBRACK eRBRACKET c)
          end
        end
      end
    end
  end.
Definition array_index (n : nat) (l : list DeclModel.sym) (a : DeclModel.tyrec) (c : comp) : ares :=
  if negb (token c =? tLBRACK) then ADone (error eLBRACKET c)
  else index_loop n l (DeclModel.tDim a) (DeclModel.tIdx a) 1 c.

(** pas_GetBaseTypePointer :4575-4599; the loop is left after as many steps as
    there are symbols, it does not end then *)
Fixpoint base_loop (n : nat) (l : list DeclModel.sym) (t : DeclModel.tyrec) : option DeclModel.tyrec :=
  match DeclModel.tPar t with
  | None => Some t
  | Some p =>
    match type_of l p with
    | None => Some t
    | Some t' => if DeclModel.tType t =? 0x56 then Some t
                 else match n with O => None | S n' => base_loop n' l t' end
    end
  end.
Definition base_type (l : list DeclModel.sym) (t : DeclModel.tyrec) : option DeclModel.tyrec :=
  base_loop (length l) l t.
(** arrayKind, :1706-1719 and pas_statement.c:981-997 *)
Definition element_kind (t : DeclModel.tyrec) : Z :=
  if DeclModel.tType t =? sSUBRANGE then DeclModel.tSub t else DeclModel.tType t.

(** pas_BaseFactor :1846-2050 with FACTOR_INDEXED only: [k] is the kind, [size]
    the size of the base type *)
Definition load_element (k size : Z) (v : sym) (c : comp) : comp :=
  if is_word_var k then stack_ref oLDSX v c
  else if k =? sSHORTINT then stack_ref oLDSXB v c
  else if is_byte_var k then stack_ref oULDSXB v c
  else stack_ref oLDSXM v (data_op oPUSH size c).

(** A factor that begins with the name of an array, pas_ComplexFactor :1202-1236
    and pas_SimpleFactor :1699-1752; [v] is the variable, [p] its type, and the
    current token stands behind the name *)
Definition array_factor (n : nat) (l : list DeclModel.sym) (v : sym) (p : nat) (c : comp) : option etype * ares :=
  match type_of l p with
  | None => (None, ANotModelled)
  | Some a =>
    match base_type l a with
    | None => (None, ANoFuel)
    | Some b =>
      match map_type (element_kind b) with
      | None => (None, ANotModelled)
      | Some ty =>
        if token c =? tLBRACK then
          (Some ty, binda (array_index n l a c) (fun c => ADone (load_element (element_kind b) (DeclModel.tSize b) v c)))
        else (None, ANotModelled)
      end
    end
  end.

(** An assignment to an element, pas_ComplexAssignment pas_statement.c:222-243,
    pas_SimpleAssignment :956-1013, then :300-560 with ASSIGN_INDEXED only,
    pas_Assignment :1040-1051, pas_LargeAssignment :1283-1294 *)
Definition array_assignment (n : nat) (l : list DeclModel.sym) (v : sym) (p : nat) (c : comp) : ares :=
  match type_of l p with
  | None => ANotModelled
  | Some a =>
    match base_type l a with
    | None => ANoFuel
    | Some b =>
      let k := element_kind b in
      match map_type k with
      | None => ANotModelled
      | Some ty =>
        if token c =? tLBRACK then
          binda (array_index n l a c) (fun c =>
          match expression n ty (expect tASSIGN eASSIGN c) with
          | NoFuel => ANoFuel
          | NotModelled => ANotModelled
          | Done _ c =>
            ADone (if is_word_var k then stack_ref oSTSX v c
                   else if is_byte_var k then stack_ref oSTSXB v c
                   else stack_ref oSTSXM v (data_op oPUSH (DeclModel.tSize b) c))
          end)
        else if k =? sCHAR then ANotModelled
        else ADone (error eLBRACKET c)
      end
    end
  end.
