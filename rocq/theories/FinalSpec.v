(** Specification of label resolution. *)

From Coq Require Import ZArith Bool List.
From Verif Require Import Opcodes Machine EncodeSpec FinalModel.
Import ListNotations.
Open Scope Z_scope.

(** A marker produces no code: it only names the place (label) or the source
    line of the next instruction. *)
Definition marker (p : opType) : bool := (op p =? oLABEL) || (op p =? oLINE).

(** The instructions of a program, without the markers *)
Definition instructions (ops : list opType) : list opType := filter (fun p => negb (marker p)) ops.

(** The number of bytes a list of instructions occupies *)
Definition code_size (ops : list opType) : Z := fold_right (fun p n => insn_length (op p) + n) 0 ops.

(** Label [l] is defined in [ops] and stands for address [a]: the size of the
    code in front of the label. *)
Definition label_at (ops : list opType) (l a : Z) : Prop :=
  exists pre p post, ops = pre ++ p :: post /\ op p = oLABEL /\ arg2 p = l /\
    a = code_size (instructions pre).

Definition has_label (ops : list opType) (l : Z) : Prop := exists p, In p ops /\ op p = oLABEL /\ arg2 p = l.

(** Every label is defined at most once. *)
Definition labels_once (ops : list opType) : Prop :=
  forall pre p mid q post, ops = pre ++ p :: mid ++ q :: post ->
    op p = oLABEL -> op q = oLABEL -> arg2 p <> arg2 q.

(** All instructions that transfer control to their 16-bit operand *)
Definition branch (o : Z) : Prop :=
  In o [oJMP; oJEQUZ; oJNEQZ; oJLTZ; oJGTEZ; oJGTZ; oJLTEZ; oJEQU; oJNEQ; oJLT; oJGTE; oJGT; oJLTE;
        oJULT; oJUGTE; oJUGT; oJULTE].

Definition unsigned_branch (o : Z) : Prop := In o [oJULT; oJUGTE; oJUGT; oJULTE].

(** A procedure or function symbol *)
Definition code_symbol (s : symbol) : Prop := stype s = STT_PROC \/ stype s = STT_FUNC.
Definition undefined_symbol (s : symbol) : Prop := Z.odd (sflags s) = true.

(** Symbol number [i] stands for the external routine called by label [l]. *)
Definition external_at (syms : list symbol) (l : Z) (i : nat) : Prop :=
  exists s, nth_error syms i = Some s /\ code_symbol s /\ undefined_symbol s /\ svalue s = l.

(** [q] is the resolved form of [p] *)
Definition resolved (ops : list opType) (syms : list symbol) (p q : opType) : Prop :=
  op q = op p /\ arg1 q = arg1 p /\
  (branch (op p) -> label_at ops (arg2 p) (arg2 q)) /\
  (op p = oPCAL ->
     label_at ops (arg2 p) (arg2 q) \/
     (~ has_label ops (arg2 p) /\ (exists i, external_at syms (arg2 p) i) /\ arg2 q = 0)) /\
  (~ branch (op p) -> op p <> oPCAL -> q = p).

(** The program text as the compiler and the optimizer leave it: well formed
    instructions, closed by END. *)
Definition program_text (ops : list opType) : Prop :=
  exists body, ops = body ++ [the_end] /\ Forall wf_op body /\ Forall (fun p => op p <> oEND) body.

(** Everything that is referenced exists. *)
Definition references_ok (ops : list opType) (syms : list symbol) : Prop :=
  (forall p, In p ops -> branch (op p) -> has_label ops (arg2 p)) /\
  (forall p, In p ops -> op p = oPCAL -> has_label ops (arg2 p) \/ exists i, external_at syms (arg2 p) i) /\
  (forall s, In s syms -> code_symbol s -> ~ undefined_symbol s -> has_label ops (svalue s)).

(** The symbol table after resolution: defined routines carry their address. *)
Definition symbol_resolved (ops : list opType) (s s' : symbol) : Prop :=
  stype s' = stype s /\ sflags s' = sflags s /\
  (code_symbol s /\ ~ undefined_symbol s -> label_at ops (svalue s) (svalue s')) /\
  (~ (code_symbol s /\ ~ undefined_symbol s) -> svalue s' = svalue s).

(** The relocations of the calls of external routines: those and only those. *)
Definition call_relocs (ops : list opType) (syms : list symbol) (rs : list reloc) : Prop :=
  forall r, In r rs <->
    exists pre p post i, instructions ops = pre ++ p :: post /\ op p = oPCAL /\
      ~ has_label ops (arg2 p) /\
      external_at syms (arg2 p) i /\ (forall j, (j < i)%nat -> ~ external_at syms (arg2 p) j) /\
      r = mkRel (rli_make (Z.of_nat i) RLT_PCAL) (code_size pre).

(** [r'] is relocation [r] moved along with the instruction it patches *)
Definition reloc_moved (ops : list opType) (r r' : reloc) : Prop :=
  rinfo r' = rinfo r /\
  exists pre p post, ops = pre ++ p :: post /\ marker p = false /\
    roffset r = code_size pre /\ roffset r' = code_size (instructions pre).

(** Every relocation patches an instruction, in the order of the code. *)
Definition relocs_ok (ops : list opType) (rels : list reloc) : Prop :=
  (forall r, In r rels -> exists pre p post, ops = pre ++ p :: post /\ marker p = false /\ roffset r = code_size pre) /\
  (forall a r b r' c, rels = a ++ r :: b ++ r' :: c -> roffset r < roffset r').

(** The line records of a program: one for each LINE marker, in order, with the
    address of the next instruction. *)
Definition line_records (ops : list opType) (ls : list (Z * Z * Z)) : Prop :=
  exists idx : list nat,
    (* the positions of the markers in increasing order *)
    (forall i, In i idx <-> exists p, nth_error ops i = Some p /\ op p = oLINE) /\
    (forall a i b j c, idx = a ++ i :: b ++ j :: c -> (i < j)%nat) /\
    Forall2 (fun i l => exists p, nth_error ops i = Some p /\
               l = (arg2 p, arg1 p, code_size (instructions (firstn i ops)))) idx ls.
