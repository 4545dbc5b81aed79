(** P-machine state: data stack and registers.  Definitions only. *)

From Coq Require Import ZArith Bool List.
From Verif Require Import Words.
Import ListNotations.
Open Scope Z_scope.

(** Static part of struct libexec_s (insn16/include/libexec.h:265-330): the
    memory map set up by libexec_Initialize / libexec_Reset
    (insn16/libexec/libexec_run.c:1372-1450, 1519-1579).  [c_ssz] is
    st->stackSize, the number of bytes allocated for the data stack. *)
Record cfg := mkCfg
  { c_ssz : Z;      (* stackSize *)
    c_spb : Z;      (* Pascal stack base (after libexec_Reset) *)
    c_hpb : Z;      (* heap base *)
    c_rop : Z;      (* read-only data pointer *)
    c_hpsz : Z      (* hpSize *) }.

(** Dynamic part of struct libexec_s.  [mem] maps the index of a 16-bit word
    of dstack to its contents; the low-order 16 bits are what counts.  [fch] is
    st->freeChunks as byte address in dstack, -1 for NULL.  File table,
    ioBuffer and debugger fields are not part of this record. *)
Record st := mkSt
  { mem : Z -> Z;
    cf : cfg;
    sp : Z; csp : Z; fp : Z; pc : Z; lsp : Z;
    fch : Z }.

Definition with_mem (s : st) m := mkSt m (cf s) (sp s) (csp s) (fp s) (pc s) (lsp s) (fch s).
Definition with_sp  (s : st) v := mkSt (mem s) (cf s) v (csp s) (fp s) (pc s) (lsp s) (fch s).
Definition with_csp (s : st) v := mkSt (mem s) (cf s) (sp s) v (fp s) (pc s) (lsp s) (fch s).
Definition with_fp  (s : st) v := mkSt (mem s) (cf s) (sp s) (csp s) v (pc s) (lsp s) (fch s).
Definition with_pc  (s : st) v := mkSt (mem s) (cf s) (sp s) (csp s) (fp s) v (lsp s) (fch s).
Definition with_lsp (s : st) v := mkSt (mem s) (cf s) (sp s) (csp s) (fp s) (pc s) v (fch s).
Definition with_fch (s : st) v := mkSt (mem s) (cf s) (sp s) (csp s) (fp s) (pc s) (lsp s) v.

Definition upd (m : Z -> Z) (i v : Z) : Z -> Z := fun j => if j =? i then v else m j.

(** Result of executing something on the machine. *)
Inductive outcome :=
| Ok (s : st)               (* eNOERROR *)
| Err (code : Z) (s : st)   (* run-time error code returned *)
| UB                        (* undefined behaviour of the C program *)
| Hang                      (* a loop of the C program that does not terminate *)
| Ext.                      (* not modelled: FLOAT, OSOP, SYSIO *)

(** Access to word [i] of dstack.i[]; outside of the allocation: undefined. *)
Definition in_word (s : st) (i : Z) : bool := (0 <=? i) && (i <? c_ssz (cf s) / 2).

Definition rd (s : st) (i : Z) : option Z :=
  if in_word s i then Some (u16 (mem s i)) else None.

Definition wr (s : st) (i v : Z) : option st :=
  if in_word s i then Some (with_mem s (upd (mem s) i (u16 v))) else None.

(** Access to byte [a] of dstack.b[]; little-endian host. *)
Definition in_byte (s : st) (a : Z) : bool := (0 <=? a) && (a <? c_ssz (cf s)).

Definition byte_of (m : Z -> Z) (a : Z) : Z :=
  if a mod 2 =? 0 then u8 (m (a / 2)) else u8 (u16 (m (a / 2)) / 256).

Definition set_byte (m : Z -> Z) (a v : Z) : Z -> Z :=
  let w := u16 (m (a / 2)) in
  upd m (a / 2) (if a mod 2 =? 0 then (w / 256) * 256 + u8 v
                 else u8 v * 256 + w mod 256).

Definition rdb (s : st) (a : Z) : option Z :=
  if in_byte s a then Some (byte_of (mem s) a) else None.

Definition wrb (s : st) (a v : Z) : option st :=
  if in_byte s a then Some (with_mem s (set_byte (mem s) a v)) else None.

(** insn16/include/libexec.h:66-131, the stack macros.  [BTOISTACK x] is
    x >> 1.  sp is a uint16_t: += and -= wrap. *)
Definition getstack (s : st) (a : Z) : option Z := rd s (a / 2).
Definition putstack (s : st) (v a : Z) : option st := wr s (a / 2) v.
Definition tos (s : st) (off : Z) : option Z := rd s (sp s / 2 - off).
Definition puttos (s : st) (off v : Z) : option st := wr s (sp s / 2 - off) v.

Definition pop (s : st) : option (Z * st) :=
  match rd s (sp s / 2) with
  | Some v => Some (v, with_sp s (u16 (sp s - 2)))
  | None => None
  end.

Definition push (s : st) (v : Z) : option st :=
  let s1 := with_sp s (u16 (sp s + 2)) in wr s1 (sp s1 / 2) v.

Definition discard (s : st) (n : Z) : st := with_sp s (u16 (sp s - 2 * n)).

(** ROUNDBTOI, libexec.h:69 *)
Definition roundbtoi (n : Z) : Z := (n + 1) / 2.

(** Undefined behaviour propagates. *)
Definition bindo {A} (o : option A) (k : A -> outcome) : outcome :=
  match o with Some a => k a | None => UB end.
Definition bindO {A B} (o : option A) (k : A -> option B) : option B :=
  match o with Some a => k a | None => None end.

Notation "x <- e ;; k" := (bindo e (fun x => k))
  (at level 61, e at next level, right associativity).
Notation "' p <- e ;; k" := (bindo e (fun p => k))
  (at level 61, p pattern, e at next level, right associativity).
Notation "x <-? e ;; k" := (bindO e (fun x => k))
  (at level 61, e at next level, right associativity).
Notation "' p <-? e ;; k" := (bindO e (fun p => k))
  (at level 61, p pattern, e at next level, right associativity).

Definition ret (o : option st) : outcome :=
  match o with Some s => Ok s | None => UB end.
