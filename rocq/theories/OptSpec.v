(** What it means that the optimizer preserves the program.  Based on the
    execution of single instructions ([exec_insn]) and on the observables of a
    state; independent of the optimizer's definitions. *)

From Coq Require Import ZArith Bool List Relations.Relation_Operators.
From Verif Require Import State Opcodes Machine VmSpec.
Import ListNotations.
Open Scope Z_scope.

(** ------------------------------------------------------------------ *)
(** Executing code with symbolic labels.  The operand of a jump is the number of a
    label, not an address: a list of instructions either runs to its end, or jumps
    to a label, or does not get there (run-time error, undefined behaviour, an
    instruction which is not modelled). *)

Inductive flow := Falls (s : st) | Jumps (l : Z) (s : st) | Stops.

Definition is_jump (o : opType) : bool := existsb (Z.eqb (op o)) jump_codes.

(** A jump is executed at address 0 with target 0: it is taken if and only if the
    program counter is 0 afterwards.  Moving the stack pointer out of the data
    stack stops the program. *)
Definition flow_op (s : st) (o : opType) : flow :=
  if is_jump o then
    match exec_insn (with_pc s 0) (mkOp (op o) (arg1 o) 0) with
    | Ok s' => if pc s' =? 0 then Jumps (arg2 o) s' else Falls s'
    | _ => Stops
    end
  else if (op o =? oINDS) &&
          negb ((0 <=? sp s + (if arg2 o <? 32768 then arg2 o else arg2 o - 65536)) &&
                (sp s + (if arg2 o <? 32768 then arg2 o else arg2 o - 65536) <? c_ssz (cf s)))
  then Stops
  else match exec_insn s o with Ok s' => Falls s' | _ => Stops end.

Fixpoint flow_list (l : list opType) (s : st) : flow :=
  match l with
  | [] => Falls s
  | o :: l' => match flow_op s o with Falls s' => flow_list l' s' | r => r end
  end.

(** ------------------------------------------------------------------ *)
(** Words above the top of the stack are dead: [s1] and [s2] agree up to dead words
    with an index not above [m]. *)
Definition agree (m : Z) (s1 s2 : st) : Prop :=
  same_regs s1 s2 /\ sp s2 = sp s1 /\
  forall i, ~ (sp s1 / 2 < i <= m) -> rd s2 i = rd s1 i.

(** The memory words an instruction reads apart from its operands on the stack:
    a variable, or the static links leading to its frame *)
Inductive reads_link (s : st) (o : opType) (i : Z) : Prop :=
| reads_link_intro k g :
    In (op o) [oLDS; oLDSB; oULDSB; oLAS; oSTS; oSTSB; oLDSM] ->
    (k < Z.to_nat (arg1 o))%nat -> reaches s (fp s) k g -> i = g / 2 -> reads_link s o i.
Inductive reads (s : st) (o : opType) (i : Z) : Prop :=
| reads_global a : In (op o) [oLD; oLDB; oULDB] -> global_ea s (arg2 o) 0 a -> i = a / 2 -> reads s o i
| reads_frame a : In (op o) [oLDS; oLDSB; oULDSB] -> frame_ea s (arg1 o) (arg2 o) 0 a -> i = a / 2 ->
    reads s o i
| reads_links : reads_link s o i -> reads s o i.
(** The word a store writes *)
Inductive stores (s : st) (o : opType) (i : Z) : Prop :=
| stores_global a : In (op o) [oST; oSTB] -> global_ea s (arg2 o) 0 a -> i = a / 2 -> stores s o i
| stores_frame a : In (op o) [oSTS; oSTSB] -> frame_ea s (arg1 o) (arg2 o) 0 a -> i = a / 2 -> stores s o i.

(** Number of words above the top of the stack which an instruction sequence under
    consideration uses for its operands *)
Definition DEPTH := 4.

(** The variables accessed are not operands on the stack, and no store overwrites a
    static link in use. *)
Definition clean (s : st) (l : list opType) : Prop :=
  (forall o i, In o l -> reads s o i -> ~ (sp s / 2 < i <= sp s / 2 + DEPTH)) /\
  (forall o o' i, In o l -> In o' l -> stores s o i -> ~ reads_link s o' i).

(** [y] does what [x] does, whenever [x] runs to its end or jumps *)
Definition matches (m : Z) (f f' : flow) : Prop :=
  match f with
  | Stops => True
  | Falls s1 => exists s2, f' = Falls s2 /\ agree m s1 s2
  | Jumps l s1 => exists s2, f' = Jumps l s2 /\ agree m s1 s2
  end.

(** ... in all states in which the condition [P] holds *)
Definition refines_if (P : st -> Prop) (x y : list opType) : Prop :=
  forall s, room s DEPTH -> 2 * DEPTH <= sp s -> clean s (x ++ y) -> P s ->
    matches (sp s / 2 + DEPTH) (flow_list x s) (flow_list y s).
Definition refines : list opType -> list opType -> Prop := refines_if (fun _ => True).

(** ------------------------------------------------------------------ *)
(** The code in a table of the optimizer: deleted entries and line numbers do not
    count. *)
Definition code (t : list opType) : list opType :=
  filter (fun o => negb ((op o =? oNOP) || (op o =? oLINE))) t.

(** Instructions whose place matters beyond what [flow_list] follows: the target of a
    jump, the end of a procedure or of the program, calls and what the model of the
    machine leaves open.  A window which is replaced must not contain them. *)
Definition marks : list Z :=
  [oLABEL; oRET; oEND; oPCAL; oSYSIO; oSTRLIB; oOSOP; oFLOAT; oSETOP; oLONGOP24; oLINE].
Definition unmarked (l : list opType) : Prop := forall o, In o l -> ~ In (op o) marks.

(** A sequence of instructions is replaced by one which refines it. *)
Definition window_refines (c c' : list opType) : Prop :=
  exists pre x y post, c = pre ++ x ++ post /\ c' = pre ++ y ++ post /\ unmarked (x ++ y) /\ refines x y.

Definition preserved (t t' : list opType) : Prop :=
  clos_refl_trans _ window_refines (code t) (code t').

(** The constant an instruction pushes *)
Definition pushes (o : opType) (c : Z) : Prop :=
  (op o = oPUSH /\ c = arg2 o) \/
  (op o = oPUSHB /\ word16 c (if arg1 o <? 128 then arg1 o else arg1 o - 256)) \/
  (op o = oUPUSHB /\ c = arg1 o).
