(** The windows for which an optimization does not preserve the program.  Each
    theorem about a pass assumes that none of them occurs; each exception has a
    theorem exhibiting the miscompilation. *)

From Coq Require Import ZArith List.
From Verif Require Import State Opcodes Machine VmSpec OptSpec LongSpec.
Import ListNotations.
Open Scope Z_scope.

(** popt_UnaryOptimize *)
Inductive unary_bad (a b : opType) : Prop :=
| ub_sign c : pushes a c -> In (op b) [oGTZ; oLTEZ; oJGTZ; oJLTEZ] -> 32768 <= c -> unary_bad a b
| ub_div c n : pushes a c -> op b = oDIV -> 1 <= n -> c = 2 ^ n -> unary_bad a b
| ub_cmp c : pushes a c -> In (op b) [oLT; oGTE; oGT; oLTE] -> c = 1 \/ c = 65535 -> unary_bad a b
(* not wrong, but outside of what [flow_op] covers: the sum of two stack
   adjustments does not fit into 16 bits and moves the stack pointer modulo 2^16 *)
| ub_inds x y : op a = oINDS -> op b = oINDS -> signed16 (arg2 a) x -> signed16 (arg2 b) y ->
    ~ (-32768 <= x + y < 32768) -> unary_bad a b.

(** two neighbours of a list *)
Definition adjacent {A} (l : list A) (a b : A) : Prop := exists p q, l = p ++ a :: b :: q.

Definition sign16 (x : Z) : bool := x <? 32768.

(** popt_BinaryOptimize *)
Inductive binary_bad (a b o : opType) : Prop :=
(* the optimizer itself divides by zero or overflows *)
| bb_zero x : pushes a x -> pushes b 0 -> In (op o) [oDIV; oMOD; oUMOD] -> binary_bad a b o
| bb_mul x y : pushes a x -> pushes b y -> In (op o) [oMUL; oUMUL] -> 2147483648 <= x * y -> binary_bad a b o
(* wrong signs in folding *)
| bb_div x y : pushes a x -> pushes b y -> op o = oDIV -> sign16 x = false -> binary_bad a b o
| bb_mod x y : pushes a x -> pushes b y -> op o = oMOD -> sign16 x = false \/ sign16 y = false -> binary_bad a b o
| bb_ucmp x y : pushes a x -> pushes b y -> In (op o) [oULT; oUGTE; oUGT; oULTE] -> sign16 x <> sign16 y ->
    binary_bad a b o
(* the address of a stack word is loaded with another stack pointer *)
| bb_lar x : pushes a x -> op b = oLAR -> binary_bad a b o
(* 0 - x becomes x or loses an operand; comparisons of 0 with x *)
| bb_sub : pushes a 0 -> In (op b) [oLD; oLDB; oULDB; oLDS; oLDSB; oULDSB; oLA; oLAS; oLAC] -> op o = oSUB ->
    binary_bad a b o
| bb_cmp : pushes a 0 -> In (op b) [oLDS; oLDSB; oULDSB; oLAS; oLAC] -> In (op o) [oLT; oGTE; oGT; oLTE] ->
    binary_bad a b o
(* an offset in a frame changes its sign: the frame header is skipped or not *)
| bb_las y r : op a = oLAS -> pushes b y -> (op o = oADD /\ word16 r (arg2 a + y) \/ op o = oSUB /\ word16 r (arg2 a - y)) ->
    sign16 (arg2 a) <> sign16 r -> binary_bad a b o
| bb_lasx y : op a = oLASX -> pushes b y -> In (op o) [oADD; oSUB] -> binary_bad a b o
(* x / 65535 becomes -x *)
| bb_udiv : pushes b 65535 -> op o = oUDIV -> binary_bad a b o.

(** three neighbours of a list *)
Definition adjacent3 {A} (l : list A) (a b c : A) : Prop := exists p q, l = p ++ a :: b :: c :: q.

(** popt_BranchOptimize: right for Boolean operands, respectively for operands
    other than -32768, only *)
Inductive branch_bad (a b : opType) : Prop :=
| rb_not : op a = oNOT -> In (op b) [oJEQUZ; oJNEQZ] -> branch_bad a b
| rb_neg : op a = oNEG -> In (op b) [oJLTZ; oJGTEZ; oJGTZ; oJLTEZ] -> branch_bad a b.

(** popt_StackOrder: the address of a stack word changes with the order of the operands *)
Inductive stack_bad (z a b : opType) : Prop :=
| sb_lar : op b = oXCHG -> op z = oLAR \/ op a = oLAR -> stack_bad z a b.

(** popt_LoadOptimize: the sign of a frame offset decides whether the frame header
    is skipped; the index is unsigned for the machine *)
Inductive load_bad (a b : opType) : Prop :=
| lb_sign c z r : pushes a c -> In (op b) [oLDSX; oLDSXB; oULDSXB; oLASX] -> signed16 (arg2 b) z ->
    word16 r (arg2 b + c) -> (0 <=? z + c) <> sign16 r -> load_bad a b.
(** not wrong, but not covered: loads of several words *)
Inductive load_multi_bad (a b o : opType) : Prop :=
| lb_multi c : pushes a c -> In (op o) [oLDXM; oLDSXM] -> load_multi_bad a b o.

(** popt_StoreOptimize *)
Inductive store_bad (a b : opType) : Prop :=
(* the byte stored is not what is left on the stack *)
| tb_byte : In (op a) [oSTB; oSTSB] -> In (op b) [oLDB; oLDSB] -> store_bad a b.
Inductive storex_bad (a b o : opType) : Prop :=
(* the instruction between the index and the store is not one which just pushes a word *)
| tb_between c : pushes a c -> In (op o) [oSTSX; oSTSXB] ->
    ~ In (op b) [oPUSH; oPUSHB; oUPUSHB; oLD; oLDB; oULDB; oLDS; oLDSB; oULDSB; oLA; oLAS; oLAC] -> storex_bad a b o
(* the frame offset changes its sign *)
| tb_sign c r : pushes a c -> In (op o) [oSTSX; oSTSXB] -> word16 r (arg2 o + c) -> sign16 (arg2 o) <> sign16 r ->
    storex_bad a b o.

(** ------------------------------------------------------------------ *)
(** popt_LongUnaryOptimize.  The numbers of the long operations:
    insn16/include/longops.h *)
Definition long_const (p0 p1 : opType) (w : Z) : Prop := exists l h, pushes p0 l /\ pushes p1 h /\ w = l + 65536 * h.

Inductive long_unary_bad (p0 p1 o : opType) : Prop :=
(* oDCNV: the wrong entry is deleted *)
| lu_dcnv w : long_const p0 p1 w -> op o = oLONGOP8 -> arg1 o = 0x60 -> long_unary_bad p0 p1 o
(* oDNEG, oDABS: the optimizer negates INT_MIN *)
| lu_min : long_const p0 p1 2147483648 -> op o = oLONGOP8 -> In (arg1 o) [0x41; 0x42] -> long_unary_bad p0 p1 o
(* oDEQUZ ... oDLTEZ: two words are left on the stack *)
| lu_test w : long_const p0 p1 w -> op o = oLONGOP8 -> 0x50 <= arg1 o <= 0x55 -> long_unary_bad p0 p1 o
(* oDEQU ... oDLTE with zero: the comparison vanishes *)
| lu_cmp : long_const p0 p1 0 -> op o = oLONGOP8 -> 0x56 <= arg1 o <= 0x5b -> long_unary_bad p0 p1 o
(* oDLT ... oDLTE with 1 or -1 *)
| lu_ord w : long_const p0 p1 w -> w = 1 \/ w = 4294967295 -> op o = oLONGOP8 -> 0x58 <= arg1 o <= 0x5b -> long_unary_bad p0 p1 o
(* oDSLL, oDSRL, oDSRA: the two constants are not an operand of the shift *)
| lu_shift : long_const p0 p1 0 -> op o = oLONGOP8 -> In (arg1 o) [0x4b; 0x4c; 0x4d] -> long_unary_bad p0 p1 o.

(** The long operation in second place behind a constant: g_opPtr[-1] is read,
    unless it is a conversion *)
Inductive long_first_bad : list opType -> Prop :=
| lf_bad p o q c : pushes p c -> op o = oLONGOP8 -> ~ In (arg1 o) [0x5e; 0x5f] -> long_first_bad (p :: o :: q).

(** a part of a list *)
Definition within {A} (l w : list A) : Prop := exists p q, l = p ++ w ++ q.

(** popt_LongBinaryOptimize: [a0 a1] and [b0 b1] are long constants *)
Inductive long_binary_bad (a0 a1 b0 b1 o : opType) : Prop :=
(* the optimizer itself overflows or divides by zero *)
| lbb_add x y z z' : long_const a0 a1 x -> long_const b0 b1 y -> signed32 x z -> signed32 y z' ->
    op o = oLONGOP8 ->
    (arg1 o = 0x46 /\ ~ fits32 (z + z') \/ arg1 o = 0x47 /\ ~ fits32 (z - z') \/
     arg1 o = 0x48 /\ ~ fits32 (z * z')) -> long_binary_bad a0 a1 b0 b1 o
| lbb_zero x : long_const a0 a1 x -> long_const b0 b1 0 -> op o = oLONGOP8 -> In (arg1 o) [0x49; 0x4a; 0x63; oUDIV] ->
    long_binary_bad a0 a1 b0 b1 o
| lbb_min : long_const a0 a1 2147483648 -> long_const b0 b1 4294967295 -> op o = oLONGOP8 -> In (arg1 o) [0x49; 0x4a] ->
    long_binary_bad a0 a1 b0 b1 o
(* ordered comparisons: the machine compares in the opposite order *)
| lbb_cmp x y : long_const a0 a1 x -> long_const b0 b1 y -> op o = oLONGOP8 ->
    In (arg1 o) [0x58; 0x59; 0x5a; 0x5b; 0x64; 0x65; 0x66; 0x67] -> long_binary_bad a0 a1 b0 b1 o.

(** shifts of a long constant by a constant *)
Inductive long_shift_bad (a0 a1 b o : opType) : Prop :=
| ls_count x n : long_const a0 a1 x -> pushes b n -> 32 <= n -> op o = oLONGOP8 -> In (arg1 o) [0x4b; 0x4c; 0x4d] ->
    long_shift_bad a0 a1 b o.
