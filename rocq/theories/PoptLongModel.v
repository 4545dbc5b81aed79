(** insn16/popt/popt_longconst.c, popt_local.c and the window handling of
    popt_peephole.c.  Definitions only. *)

From Coq Require Import ZArith Bool List.
From Verif Require Import Words Opcodes State LongModel Machine PoptModel.
Import ListNotations.
Open Scope Z_scope.

(** One iteration of a loop of popt_longconst.c consists of a rewrite, after
    which the loop continues ([Cont]) or the rest of the body is executed
    ([Brk]). *)
Inductive lres := Cont (r : rout) | Brk (r : rout).

(** The number of a long operation, insn16/include/longops.h *)
Definition lop (o : longop8) : Z :=
  match o with
  | oDNOP => 0x40 | oDNEG => 0x41 | oDABS => 0x42 | oDINC => 0x43 | oDDEC => 0x44 | oDNOT => 0x45
  | oDADD => 0x46 | oDSUB => 0x47 | oDMUL => 0x48 | oDDIV => 0x49 | oDMOD => 0x4a | oDSLL => 0x4b
  | oDSRL => 0x4c | oDSRA => 0x4d | oDOR => 0x4e | oDAND => 0x4f | oDEQUZ => 0x50 | oDNEQZ => 0x51
  | oDLTZ => 0x52 | oDGTEZ => 0x53 | oDGTZ => 0x54 | oDLTEZ => 0x55 | oDEQU => 0x56 | oDNEQ => 0x57
  | oDLT => 0x58 | oDGTE => 0x59 | oDGT => 0x5a | oDLTE => 0x5b | oDDUP => 0x5c | oDXCHG => 0x5d
  | oCNVD => 0x5e | oUCNVD => 0x5f | oDCNV => 0x60 | oDUMUL => 0x61 | oDUDIV => 0x62 | oDUMOD => 0x63
  | oDULT => 0x64 | oDUGTE => 0x65 | oDUGT => 0x66 | oDULTE => 0x67 | oDXOR => 0x68
  end.

Definition lop8 (o : longop8) : opType := mkOp oLONGOP8 (lop o) 0.

(** ------------------------------------------------------------------ *)
(** popt_LongUnaryOptimize :74-784 *)

(** The conversions of a pushed constant :104-146; [p1] is the entry in front of
    the long operation at position [S j1] *)
Definition long_conv (j1 : nat) (p1 : opType) (w : Z) : rout :=
  Rw j1 [optimize_push (set_arg2 (expand_push p1) (lo16 w));
         optimize_push (mkOp oPUSH 0 (hi16 w))] [] (S (S j1)) 0.

(** Two constants [p0], [p1] in front of the long operation [o] at position
    i = j0 + 2; [after] tells whether a further entry follows. :150-696 *)
Section LongUnary.
  Variables (j0 : nat) (p0 p1 o : opType) (after : option opType).
  Let i := S (S j0).
  Let q0 := expand_push p0.
  Let q1 := expand_push p1.
  Let w := mk32 (arg2 q0) (arg2 q1).
  Definition two (v : Z) : list opType := [set_arg2 q0 (lo16 v); set_arg2 q1 (hi16 v)].
  Definition l_fold (v : Z) := Cont (Rw j0 (two v ++ [nop]) [] i 1).
  Definition l_trio := Cont (Rw j0 [nop; nop; nop] [] i 1).
  Definition l_keep := Brk (Rw j0 [q0; q1] [] i 0).
  Definition l_to (z : longop8) := Brk (Rw j0 [nop; nop; set_arg1 o (lop z)] [] i 1).
  (* -x, undefined for INT_MIN *)
  Definition l_neg := if int_ok (- s32 w) then l_fold (u32 (- s32 w)) else Cont Crash.
  Definition l_muldiv (z : longop8) :=
    if s32 w =? 1 then l_trio
    else let temp := power_of_two (arg2 o) in     (* arg2 of the long operation :278 *)
         if 1 <=? temp then Brk (Rw j0 [q0; set_arg2 q1 (u16 temp); set_arg1 o (lop z)] [] i 1)
         else l_keep.
  Definition l_cmp (z : longop8) :=
    if s32 w =? 0 then Cont (Rw j0 [q0; nop; nop] [] i 1)     (* deletes i and j1 :414 *)
    else if s32 w =? 1 then Brk (Rw j0 [nop; lop8 oDDEC; set_arg1 o (lop z)] [] i 1)
    else if s32 w =? -1 then Brk (Rw j0 [nop; lop8 oDINC; set_arg1 o (lop z)] [] i 1)
    else l_keep.
  Definition l_test (b : bool) := l_fold (u32 (if b then -1 else 0)).
  Definition l_jump (b : bool) :=
    if b then Cont (Rw j0 [nop; nop; mkOp oJMP 0 (arg2 o)] [] (S i) 1) else l_trio.

  Definition long_unary_two : lres :=
    match decode_long8 (arg1 o) with
    | Some oDCNV =>
        (* popt_DeletePCode(j1) renumbers the pointers: popt_DeletePCode(i) then
           hits the entry behind the operation :178-182 *)
        match after with
        | Some _ => Cont (Rw j0 [set_arg2 q0 (lo16 w); nop; o; nop] [] i 1)
        | None => Cont Crash
        end
    | Some oDNEG => l_neg
    | Some oDABS => if s32 w <? 0 then l_neg else Cont (Rw j0 [q0; q1; nop] [] i 1)
    | Some oDINC => l_fold (u32 (w + 1))
    | Some oDDEC => l_fold (u32 (w - 1))
    | Some oDNOT => l_fold (u32 (Z.lnot w))
    | Some oDADD => if s32 w =? 0 then l_trio else if s32 w =? 1 then l_to oDINC
                    else if s32 w =? -1 then l_to oDDEC else l_keep
    | Some oDSUB => if s32 w =? 0 then l_trio else if s32 w =? 1 then l_to oDDEC
                    else if s32 w =? -1 then l_to oDINC else l_keep
    | Some oDMUL | Some oDUMUL => l_muldiv oDSLL
    | Some oDDIV => l_muldiv oDSRA
    | Some oDUDIV => l_muldiv oDSRL
    | Some oDSLL | Some oDSRL | Some oDSRA | Some oDOR =>
        if s32 w =? 0 then l_trio else l_keep
    | Some oDAND => if w =? 4294967295 then l_trio else l_keep
    | Some oDEQUZ => l_test (s32 w =? 0)
    | Some oDNEQZ => l_test (negb (s32 w =? 0))
    | Some oDLTZ => l_test (s32 w <? 0)
    | Some oDGTEZ => l_test (0 <=? s32 w)
    | Some oDGTZ => l_test (0 <? s32 w)
    | Some oDLTEZ => l_test (s32 w <=? 0)
    | Some oDEQU => l_cmp oDEQUZ
    | Some oDNEQ => l_cmp oDNEQZ
    | Some oDLT => l_cmp oDLTZ
    | Some oDGTE => l_cmp oDGTEZ
    | Some oDGT => l_cmp oDGTZ
    | Some oDLTE => l_cmp oDLTEZ
    | _ =>
      match decode_long24 (arg1 o) with
      | Some oDJEQUZ => l_jump (s32 w =? 0)
      | Some oDJNEQZ => l_jump (negb (s32 w =? 0))
      | Some oDJLTZ => l_jump (s32 w <? 0)
      | Some oDJGTEZ => l_jump (0 <=? s32 w)
      | Some oDJGTZ => l_jump (0 <? s32 w)
      | Some oDJLTEZ => l_jump (s32 w <=? 0)
      | _ => l_keep
      end
    end.
End LongUnary.

(** The rewrite of an iteration at position [i]; [None]: the entry is not a long
    operation on a constant *)
Definition long_unary_rule (v : list opType) (i : nat) : option lres :=
  match i with
  | O => None
  | S j1 =>
    match nth_error v i, nth_error v j1 with
    | Some o, Some p1 =>
      if (op o =? oLONGOP8) && check_push p1 then
        Some (
          let c := arg2 (expand_push p1) in
          if arg1 o =? lop oCNVD then Cont (long_conv j1 p1 (u32 (s16 c)))
          else if arg1 o =? lop oUCNVD then Cont (long_conv j1 p1 c)
          else match j1 with
               | O => Brk Crash            (* g_opPtr[-1] :705 *)
               | S j0 =>
                 match nth_error v j0 with
                 | Some p0 =>
                   if check_push p0
                   then long_unary_two j0 p0 p1 o (nth_error v (S i))
                   else Brk (Rw j0 [] [] i 0)
                 | None => Brk Crash
                 end
               end)
      else None
    | _, _ => None
    end
  end.

(** The rest of the body :698-752: back to back operations.  The branch for
    oDDEC tests the opcode, which is oLONGOP8, and is dead. *)
Definition long_unary_rest (v : list opType) (i : nat) : rout :=
  match i with
  | O => Rw 0 [] [] 1 0
  | S j1 =>
    match nth_error v j1, nth_error v i with
    | Some p, Some o =>
      if (op o =? oLONGOP8) && (op p =? oLONGOP8) && (arg1 o =? lop oDINC) && (arg1 p =? lop oDDEC)
      then Rw j1 [nop; nop] [] (S i) 1 else Rw i [] [] (S i) 0
    | _, _ => Rw i [] [] (S i) 0
    end
  end.

Definition run_rout (t : list opType) (r : rout) (k : list opType -> nat -> nat -> tout) : tout :=
  match r with
  | Crash => Broken
  | Rw a p os nx ch => k (rewrite_at t a p os) nx ch
  end.

Definition long_unary_step (t : list opType) (i : nat) : tout :=
  if (length (slots t) <=? i)%nat then Done else
  match long_unary_rule (visible t) i with
  | Some (Cont r) => run_rout t r Next
  | Some (Brk r) =>
      run_rout t r (fun t1 _ ch =>
        let t2 := fold_left opt_at [(i - 1)%nat; (i - 2)%nat] t1 in
        match nth_error (visible t2) i with
        | None => Next t2 (S i) ch
        | Some o => if op o =? oLONGOP8
                    then run_rout t2 (long_unary_rest (visible t2) i) (fun t3 nx c => Next t3 nx (ch + c))
                    else Next t2 (S i) ch
        end)
  | None => run_rout t (long_unary_rest (visible t) i) Next
  end.

(** ------------------------------------------------------------------ *)
(** popt_LongBinaryOptimize :788-1249 *)

Section LongBinary.
  (* the entries at k0, k0+1, ... k0+3 and the long operation at k0+4 *)
  Variables (k0 : nat) (a0 a1 b0 b1 o : opType).
  Let i := (k0 + 4)%nat.
  Let qa0 := expand_push a0.
  Let qa1 := expand_push a1.
  Let wk := mk32 (arg2 qa0) (arg2 qa1).
  Let wj := mk32 (arg2 (expand_push b0)) (arg2 (expand_push b1)).
  Definition lb_fold (v : option Z) : lres :=
    match v with
    | None => Cont Crash
    | Some v => Cont (Rw k0 [set_arg2 qa0 (lo16 v); set_arg2 qa1 (hi16 v); nop; nop; nop] [] (S i) 1)
    end.
  Definition lb_cmp (b : bool) : lres :=
    Cont (Rw k0 [nop; nop; nop; nop; optimize_push (mkOp oPUSH 0 (btrue b))] [] i 1).
  Definition udiv32 (a b : Z) : option Z := if b =? 0 then None else Some (a / b).
  Definition umod32 (a b : Z) : option Z := if b =? 0 then None else Some (a mod b).
  Definition long_binary_four : lres :=
    if arg1 o =? oUDIV then lb_fold (udiv32 wk wj)     (* case oUDIV :905 *)
    else match decode_long8 (arg1 o) with
    | Some oDADD => lb_fold (sint (s32 wk + s32 wj))
    | Some oDSUB => lb_fold (sint (s32 wk - s32 wj))
    | Some oDMUL => lb_fold (sint (s32 wk * s32 wj))
    | Some oDUMUL => lb_fold (Some (u32 (wk * wj)))
    | Some oDDIV => lb_fold (sdiv32 (s32 wk) (s32 wj))
    | Some oDMOD => lb_fold (smod32 (s32 wk) (s32 wj))
    | Some oDUMOD => lb_fold (umod32 wk wj)
    | Some oDOR => lb_fold (Some (Z.lor wk wj))
    | Some oDAND => lb_fold (Some (Z.land wk wj))
    | Some oDEQU => lb_cmp (wk =? wj)
    | Some oDNEQ => lb_cmp (negb (wk =? wj))
    | Some oDLT => lb_cmp (s32 wk <? s32 wj)
    | Some oDULT => lb_cmp (wk <? wj)
    | Some oDGTE => lb_cmp (s32 wj <=? s32 wk)
    | Some oDUGTE => lb_cmp (wj <=? wk)
    | Some oDGT => lb_cmp (s32 wj <? s32 wk)
    | Some oDUGT => lb_cmp (wj <? wk)
    | Some oDLTE => lb_cmp (s32 wk <=? s32 wj)
    | Some oDULTE => lb_cmp (wk <=? wj)
    | _ => Brk (Rw k0 [] [] i 0)
    end.
End LongBinary.

(** Shifts :1159-1226; the constants at k0, k0+1 (value) and k0+2 (count) *)
Definition long_shift_rule (k0 : nat) (a0 a1 b o : opType) : rout :=
  let q0 := expand_push a0 in let q1 := expand_push a1 in
  let w := mk32 (arg2 q0) (arg2 q1) in
  let n := arg2 (expand_push b) in
  let fold v :=
    match v with
    | None => Crash
    | Some v => Rw k0 [set_arg2 q0 (lo16 v); set_arg2 q1 (hi16 v); nop; nop]
                   [(k0 + 2)%nat; (k0 + 1)%nat; k0] (k0 + 4) 1
    end in
  match decode_long8 (arg1 o) with
  | Some oDSLL => fold (shift32 Z.shiftl w n)
  | Some oDSRL => fold (shift32 Z.shiftr w n)
  | Some oDSRA => fold (shift32 Z.shiftr (s32 w) n)
  | _ => Rw k0 [q0; q1; expand_push b] [(k0 + 2)%nat; (k0 + 1)%nat; k0] (k0 + 4) 0
  end.

Definition long_binary_rule (v : list opType) (i : nat) : option lres :=
  match nth_error v i with
  | None => None
  | Some o =>
    if op o =? oLONGOP8 then
      match skipn (i - 4) v with
      | a0 :: a1 :: b0 :: b1 :: _ =>
        if (4 <=? i)%nat && check_push a0 && check_push a1 && check_push b0 && check_push b1
        then Some (long_binary_four (i - 4) a0 a1 b0 b1 o)
        else Some (Brk (Rw i [] [] i 0))
      | _ => Some (Brk (Rw i [] [] i 0))
      end
    else None
  end.

(** After the part for four constants the operation is still in place.  The
    "misc improvements" :1229-1247 test an opcode for equality with both
    oLONGOP8 and oDNEG and are dead. *)
Definition long_shift_body (v : list opType) (i : nat) : rout :=
  match skipn (i - 3) v with
  | a0 :: a1 :: b :: o :: _ =>
    if (3 <=? i)%nat && check_push a0 && check_push a1 && check_push b
    then long_shift_rule (i - 3) a0 a1 b o
    else Rw i [] [] (S i) 0
  | _ => Rw i [] [] (S i) 0
  end.

Definition long_binary_step (t : list opType) (i : nat) : tout :=
  if (length (slots t) <=? i)%nat then Done else
  match long_binary_rule (visible t) i with
  | Some (Cont r) => run_rout t r Next
  | Some (Brk r) =>
      run_rout t r (fun t1 _ ch =>
        run_rout t1 (long_shift_body (visible t1) i) (fun t2 nx c => Next t2 nx (ch + c)))
  | None => Next t (S i) 0
  end.

(** ------------------------------------------------------------------ *)
(** The inner loop of popt_LocalOptimization, popt_local.c:97-116 *)

Definition andthen (r : lout) (k : list opType -> nat -> lout) : lout :=
  match r with Result t c => k t c | r => r end.

Definition sweep (n : nat) (t : list opType) : lout :=
  andthen (pass n (table_step unary_body) t 0 0) (fun t c =>
  andthen (pass n long_unary_step t 1 c) (fun t c =>
  andthen (pass n (table_step binary_body) t 0 c) (fun t c =>
  andthen (pass n long_binary_step t 1 c) (fun t c =>
  andthen (pass n (table_step branch_body) t 0 c) (fun t c =>
  andthen (pass n (table_step stack_body) t 2 c) (fun t c =>
  andthen (pass n (table_step load_body) t 0 c) (fun t c =>
  pass n (table_step store_body) t 0 c))))))).

Fixpoint sweeps (m n : nat) (t : list opType) : lout :=
  match m with
  | O => Diverges
  | S m' => match sweep n t with
            | Result t' c => if (c =? 0)%nat then Result t' 0 else sweeps m' n t'
            | r => r
            end
  end.

(** popt_SetupPeephole and popt_UpdatePeephole, popt_peephole.c:229-352.  The
    input is the list of instructions insn_GetOpCode returns; behind its end
    further oEND are returned (insn16/libinsn/insn_getopcode.c:86-92). *)
Definition WINDOW : nat := 16.
Definition op_end : opType := mkOp oEND 0 0.
Definition input_op (l : list opType) : opType * list opType :=
  match l with [] => (op_end, []) | o :: r => (o, r) end.
Fixpoint fill (n : nat) (t l : list opType) : list opType * list opType :=
  match n with
  | O => (t, l)
  | S n' => let '(o, r) := input_op l in fill n' (t ++ [o]) r
  end.
Definition refill (t l : list opType) := fill (WINDOW - length t) t l.

Definition not_nop (o : opType) : bool := negb (op o =? oNOP).

(** The outer loop popt_local.c:91-121: [out] is the output so far *)
Inductive oout := ODiverges | OBreaks | OResult (out : list opType).
Fixpoint optimize_loop (k m n : nat) (t l out : list opType) : oout :=
  match k with
  | O => ODiverges
  | S k' =>
    match sweeps m n t with
    | Diverges => ODiverges
    | Breaks => OBreaks
    | Result t' _ =>
      match t' with
      | [] => OBreaks
      | o :: r =>
        let out' := if not_nop o then out ++ [o] else out in
        if op o =? oEND then OResult out'
        else let '(t2, l2) := refill (filter not_nop r) l in optimize_loop k' m n t2 l2 out'
      end
    end
  end.

(** The leading instructions up to the first LABEL or END are copied :253-272 *)
Fixpoint leading (l : list opType) : list opType * list opType :=
  match l with
  | [] => ([op_end], [])
  | o :: r => if (op o =? oLABEL) || (op o =? oEND) then ([o], r)
              else let '(a, b) := leading r in (o :: a, b)
  end.

Definition optimize (k m n : nat) (l : list opType) : oout :=
  let '(pre, r) := leading l in
  let '(t, r') := refill [] r in
  match optimize_loop k m n t r' [] with
  | OResult out => OResult (pre ++ out)
  | x => x
  end.
