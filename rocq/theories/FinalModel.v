(** Label resolution, insn16/popt/popt_finalize.c and libpoff/pflabel.c.
    Definitions only.

    Simplifications: offsets are unbounded integers (uint32_t in the code; the
    theorems bound the program size where it matters); the growable arrays are
    lists and running out of host memory is not modelled; of a symbol only
    type, flags and value are kept (name, alignment and size are copied
    unchanged); poffReplaceProgData/poffReplaceSymbolTable swap buffers and are
    function composition here. *)

From Coq Require Import ZArith Bool List.
From Verif Require Import Words Opcodes Machine EncodeModel.
Import ListNotations.
Open Scope Z_scope.

(** include/poff.h:312-345 (poffSymbol_t) and libpoff: the fields used *)
Record symbol := mkSym { stype : Z; sflags : Z; svalue : Z }.

(** include/poff.h poffRelocation_t: rl_info, rl_offset *)
Record reloc := mkRel { rinfo : Z; roffset : Z }.

(** include/poff.h:124-131,153-155 *)
Definition STT_PROC := 3.
Definition STT_FUNC := 4.
Definition STF_UNDEFINED := 1.
Definition RLT_PCAL := 1.
Definition FHT_PROGRAM := 3.

Definition rli_make (s t : Z) : Z := Z.lor (u32 (Z.shiftl (u32 s) 8)) (Z.land t 0xff).

(** libpoff/pflabel.c:208-236 poffAddToDefinedLabelTable,
    poffAddToUndefinedLabelTable: append at the end *)
Definition table_add (t : list (Z * Z)) (l v : Z) : list (Z * Z) := t ++ [(l, v)].

(** libpoff/pflabel.c:240-268 poffGetSymIndexForUndefinedLabel,
    poffGetPcForDefinedLabel: linear search from the front, -1 if absent *)
Fixpoint table_get (t : list (Z * Z)) (l : Z) : Z :=
  match t with
  | [] => -1
  | (k, v) :: t' => if k =? l then v else table_get t' l
  end.

(** The variables of pass1: input and output offset, the defined label table,
    the line number table (line, file, offset), the rewritten code, the
    relocations written, the relocations not yet consumed (g_nextRelocation and
    those behind it), and whether error(eBADRELOCDATA) was called. *)
Record p1st := mkP1 {
  p1_in : Z; p1_out : Z;
  p1_labels : list (Z * Z); p1_lines : list (Z * Z * Z);
  p1_code : list opType; p1_rels : list reloc; p1_pend : list reloc; p1_bad : bool }.

(** insn16/popt/popt_finalize.c:103-146 popt_WriteOpCode; [off] is
    opCode->offset *)
Definition write_opcode (s : p1st) (off : Z) (p : opType) : p1st :=
  match p1_pend s with
  | r :: pend =>
    if roffset r =? off
    then mkP1 (p1_in s) (p1_out s + op_size (op p)) (p1_labels s) (p1_lines s)
              (p1_code s ++ [p])
              (p1_rels s ++ [mkRel (rinfo r) (roffset r - (off - p1_out s))]) pend
              (p1_bad s || match pend with r' :: _ => roffset r' <=? roffset r | [] => false end)
    else mkP1 (p1_in s) (p1_out s + op_size (op p)) (p1_labels s) (p1_lines s)
              (p1_code s ++ [p]) (p1_rels s) (p1_pend s) (p1_bad s)
  | [] => mkP1 (p1_in s) (p1_out s + op_size (op p)) (p1_labels s) (p1_lines s)
              (p1_code s ++ [p]) (p1_rels s) [] (p1_bad s)
  end.

(** insn16/popt/popt_finalize.c:166-181, one round of the loop of pass1, with
    popt_GetOpCode (84-99) *)
Definition pass1_step (s : p1st) (p : opType) : p1st :=
  let off := p1_in s in
  let s' := mkP1 (off + op_size (op p)) (p1_out s) (p1_labels s) (p1_lines s)
                 (p1_code s) (p1_rels s) (p1_pend s) (p1_bad s) in
  if op p =? oLABEL then
    mkP1 (p1_in s') (p1_out s') (table_add (p1_labels s') (arg2 p) (p1_out s')) (p1_lines s')
         (p1_code s') (p1_rels s') (p1_pend s') (p1_bad s')
  else if op p =? oLINE then
    mkP1 (p1_in s') (p1_out s') (p1_labels s') (p1_lines s' ++ [(arg2 p, arg1 p, p1_out s')])
         (p1_code s') (p1_rels s') (p1_pend s') (p1_bad s')
  else write_opcode s' off p.

Definition pass1_start (rels : list reloc) : p1st := mkP1 0 0 [] [] [] [] rels false.

(** insn16/popt/popt_finalize.c:150-187 pass1 on the instructions up to and
    including oEND *)
Definition pass1 (ops : list opType) (rels : list reloc) : p1st :=
  fold_left pass1_step ops (pass1_start rels).

(** insn16/popt/popt_finalize.c:191-277 pass2; [i] is the index of the first
    symbol.  Result: the symbols and the undefined label table; [None]: fatal. *)
Fixpoint pass2 (labels : list (Z * Z)) (i : Z) (syms : list symbol) (undef : list (Z * Z))
  : option (list symbol * list (Z * Z)) :=
  match syms with
  | [] => Some ([], undef)
  | s :: rest =>
    if (stype s =? STT_PROC) || (stype s =? STT_FUNC) then
      if negb (Z.land (sflags s) STF_UNDEFINED =? 0) then
        match pass2 labels (i + 1) rest (table_add undef (svalue s) i) with
        | Some (ss, u) => Some (s :: ss, u)
        | None => None
        end
      else
        let v := table_get labels (svalue s) in
        if v <? 0 then None
        else match pass2 labels (i + 1) rest undef with
             | Some (ss, u) => Some (mkSym (stype s) (sflags s) v :: ss, u)
             | None => None
             end
    else match pass2 labels (i + 1) rest undef with
         | Some (ss, u) => Some (s :: ss, u)
         | None => None
         end
  end.

(** The jumps named in the switch of pass3, popt_finalize.c:373-385.  (oJULT,
    oJUGTE, oJUGT and oJULTE are missing there.) *)
Definition pass3_jumps : list Z :=
  [oJMP; oJEQUZ; oJNEQZ; oJLTZ; oJGTEZ; oJGTZ; oJLTEZ; oJEQU; oJNEQ; oJLT; oJGTE; oJGT; oJLTE].

Definition in_list (x : Z) (l : list Z) : bool := existsb (Z.eqb x) l.

(** insn16/popt/popt_finalize.c:281-470 pass3; the relocations written are
    appended to those of pass1.  [None]: fatal(ePOFFCONFUSION). *)
Fixpoint pass3 (labels undef : list (Z * Z)) (pc : Z) (ops : list opType) (rels : list reloc)
  : option (list opType * list reloc) :=
  match ops with
  | [] => Some ([], rels)
  | p :: rest =>
    let go q r := match pass3 labels undef (pc + op_size (op p)) rest r with
                  | Some (l, r') => Some (q :: l, r') | None => None end in
    if op p =? oPCAL then
      let v := table_get labels (arg2 p) in
      if 0 <=? v then go (mkOp (op p) (arg1 p) (u16 v)) rels
      else let x := table_get undef (arg2 p) in
           if 0 <=? x
           then go (mkOp (op p) (arg1 p) 0) (rels ++ [mkRel (rli_make x RLT_PCAL) pc])
           else None
    else if in_list (op p) pass3_jumps then
      let v := table_get labels (arg2 p) in
      if 0 <=? v then go (mkOp (op p) (arg1 p) (u16 v)) rels else None
    else go p rels
  end.

(** insn16/popt/popt_finalize.c:474-507 pass4; [None]: fatal *)
Definition pass4 (labels : list (Z * Z)) (ftype entry : Z) : option Z :=
  if ftype =? FHT_PROGRAM then
    let v := table_get labels entry in if v <? 0 then None else Some v
  else Some entry.

(** What popt_Finalization leaves behind *)
Record final := mkFinal {
  f_prog : list Z; f_syms : list symbol; f_rels : list reloc;
  f_lines : list (Z * Z * Z); f_entry : Z;
  f_badreloc : bool;     (* error(eBADRELOCDATA) *)
  f_extra : bool         (* error(eEXTRARELOCS) *) }.

Inductive fout := FFuel | FFatal | FDone (f : final).

(** insn16/popt/popt_finalize.c:516-605 popt_Finalization on the program bytes
    [prog]; [n] is fuel for the two read loops *)
Definition finalize (n : nat) (prog : list Z) (ftype entry : Z) (syms : list symbol) (rels : list reloc) : fout :=
  match read_program n false prog with
  | None => FFuel
  | Some (ops, _, _) =>
    let s := pass1 ops rels in
    match pass2 (p1_labels s) 0 syms [] with
    | None => FFatal
    | Some (syms', undef) =>
      match read_program n false (write_program (p1_code s)) with
      | None => FFuel
      | Some (ops3, _, _) =>
        match pass3 (p1_labels s) undef 0 ops3 (p1_rels s) with
        | None => FFatal
        | Some (code, rels') =>
          match pass4 (p1_labels s) ftype entry with
          | None => FFatal
          | Some entry' =>
            FDone (mkFinal (write_program code) syms' rels' (p1_lines s) entry' (p1_bad s)
                           (match p1_pend s with [] => false | _ => true end))
          end
        end
      end
    end
  end.
