(** Starting the p-machine: libexec_Initialize and libexec_Reset of
    insn16/libexec/libexec_run.c:1372-1450, 1519-1579.  Definitions only.

    Simplified: malloc always succeeds; [junk] is what the memory contains then.
    The file table is in SysioModel.v (libexec_InitializeFile), the fields of the
    debugger are left out. *)

From Coq Require Import ZArith Bool List.
From Verif Require Import Words State Machine HeapModel.
From Verif Require DeclModel.
Import ListNotations.
Open Scope Z_scope.

(** struct libexec_attr_s, insn16/include/libexec.h:240-260; all sizes and the
    entry are 16-bit words.  [a_rodata]: NULL or the bytes *)
Record attr := mkAttr { a_str : Z; a_ro : Z; a_stk : Z; a_hp : Z; a_rodata : option (list Z); a_entry : Z }.

(** The sizes that libexec_Initialize stores in the state *)
Record sizes := mkSizes { z_str : Z; z_ro : Z; z_stk : Z; z_hp : Z; z_all : Z; z_entry : Z }.

(** memcpy of the bytes [l] to dstack.b[a]; outside of the allocation: undefined *)
Fixpoint copy_bytes (s : st) (a : Z) (l : list Z) : hr st :=
  match l with [] => HV s | b :: l => s <~ hopt (wrb s a b) ;; copy_bytes s (a + 1) l end.

(** :1519-1579 libexec_Reset; [s] is the state before *)
Definition reset (z : sizes) (s : st) : hr st :=
  let rop := z_str z in
  let spb := u16 (rop + z_ro z) in
  let hpb := u16 (spb + z_stk z) in
  let at_ b := mkCfg (z_all z) b hpb rop (z_hp z) in
  let s := mkSt (mem s) (at_ spb) (u16 (spb + FBASE)) 0 spb (z_entry z) 0 (fch s) in
  s <~ hopt (wr s (spb / 2) 0) ;; s <~ hopt (wr s (spb / 2 + 1) (-1)) ;; s <~ hopt (wr s (spb / 2 + 2) 0) ;;
  s <~ hopt (wr s (spb / 2 + 3) 0) ;; s <~ hopt (wr s (spb / 2 + 4) 0) ;;
  init_heap (mkSt (mem s) (at_ (u16 (spb + FSIZE))) (sp s) (csp s) (fp s) (pc s) (lsp s) (fch s)).

(** :1372-1450 libexec_Initialize; INT_ALIGNUP is assigned to a 16-bit word *)
Definition aligned (n : Z) : Z := u16 (DeclModel.INT_ALIGNUP n).
Definition sizes_of (a : attr) : sizes :=
  let all := u16 (aligned (a_str a) + aligned (a_ro a) + aligned (a_stk a) + aligned (a_hp a)) in
  mkSizes (aligned (a_str a)) (aligned (a_ro a)) (aligned (a_stk a)) (aligned (a_hp a)) all (a_entry a).
Definition initialize (a : attr) (junk : Z -> Z) : hr st :=
  let s := mkSt junk (mkCfg (z_all (sizes_of a)) 0 0 0 0) 0 0 0 0 0 NULL in
  s <~ match a_rodata a with
       | Some l => if 0 <? a_ro a then copy_bytes s (a_str a) l else HV s
       | None => HV s
       end ;;
  reset (sizes_of a) s.
