(** The peephole optimizer, insn16/popt.  Definitions only.

    The table g_opTable (popt_peephole.c:64) is a list of entries; the pointer
    list g_opPtr is the list [slots] of the table positions it points to.  The
    relocation bookkeeping (offset fields) is not part of this model. *)

From Coq Require Import ZArith Bool List.
From Verif Require Import Words Opcodes LongModel Machine.
Import ListNotations.
Open Scope Z_scope.

(** popt_SetupOpcodePointerList, popt_peephole.c:160-217 *)
Definition ends_before (o : Z) : bool :=
  (o =? oRET) || (o =? oEND) || (o =? oLABEL) || (o =? oPCAL).
Definition ends_after (o : Z) : bool :=
  (o =? oJMP) || (o =? oJEQUZ) || (o =? oJNEQZ) || (o =? oJLTZ) || (o =? oJGTEZ) ||
  (o =? oJGTZ) || (o =? oJLTEZ).
Definition skipped (o : Z) : bool := (o =? oNOP) || (o =? oLINE).
Fixpoint slots_from (p : nat) (t : list opType) : list nat :=
  match t with
  | [] => []
  | o :: t' => if ends_before (op o) then []
               else if ends_after (op o) then [p]
               else if skipped (op o) then slots_from (S p) t'
               else p :: slots_from (S p) t'
  end.
Definition slots (t : list opType) : list nat := slots_from 0 t.
(** the entries g_opPtr points to *)
Fixpoint visible (t : list opType) : list opType :=
  match t with
  | [] => []
  | o :: t' => if ends_before (op o) then []
               else if ends_after (op o) then [o]
               else if skipped (op o) then visible t'
               else o :: visible t'
  end.

(** popt_peephole.c:491-505 popt_CheckLoadOperation, :512-516
    popt_CheckStoreOperation, :524-530 popt_CheckAddressOperation, :538-551
    popt_CheckBinaryOperator, :559-566 popt_CheckTransitiveOperator, :573-578
    popt_CheckPushConstant *)
Definition one_of (l : list Z) (o : opType) : bool := existsb (fun x => op o =? x) l.
Definition check_push : opType -> bool := one_of [oPUSH; oPUSHB; oUPUSHB].
Definition check_load : opType -> bool :=
  one_of [oPUSH; oPUSHB; oUPUSHB; oLD; oLDB; oULDB; oLDS; oLDSB; oULDSB; oLA; oLAS; oLAC; oLAR].
Definition check_store : opType -> bool := one_of [oST; oSTB; oSTS; oSTSB].
Definition check_address : opType -> bool := one_of [oLA; oLAX; oLAS; oLASX; oLAC; oLAR].
Definition check_binary : opType -> bool :=
  one_of [oADD; oSUB; oMUL; oDIV; oMOD; oOR; oAND; oEQU; oNEQ; oLT; oGTE; oGT; oLTE; oUMUL;
          oUDIV; oUMOD; oULT; oUGTE; oUGT; oULTE].
Definition check_transitive : opType -> bool :=
  one_of [oADD; oMUL; oOR; oAND; oEQU; oNEQ; oUMUL].

(** Assignments to the fields of an entry *)
Definition set_op (o : opType) (c : Z) : opType := mkOp c (arg1 o) (arg2 o).
Definition set_arg1 (o : opType) (v : Z) : opType := mkOp (op o) v (arg2 o).
Definition set_arg2 (o : opType) (v : Z) : opType := mkOp (op o) (arg1 o) v.

(** popt_ExpandPush, popt_util.c:58-77 *)
Definition expand_push (o : opType) : opType :=
  if op o =? oPUSHB then mkOp oPUSH 0 (u16 (s8 (arg1 o)))
  else if op o =? oUPUSHB then mkOp oPUSH 0 (arg1 o)
  else o.

(** popt_OptimizePush, popt_util.c:82-103 *)
Definition optimize_push (o : opType) : opType :=
  if op o =? oPUSH then
    if (-128 <=? s16 (arg2 o)) && (s16 (arg2 o) <=? 127) then mkOp oPUSHB (u8 (arg2 o)) 0
    else if arg2 o <=? 255 then mkOp oUPUSHB (u8 (arg2 o)) 0
    else o
  else o.

(** popt_PowerOfTwo, popt_util.c:108-132; the argument is at most 32 bits wide *)
Fixpoint power_of_two_loop (n : nat) (value p : Z) : Z :=
  match n with
  | O => -1
  | S n' => if negb (value =? 0) && (Z.land value 1 =? 0)
            then power_of_two_loop n' (value / 2) (p + 1)
            else if value =? 1 then p else -1
  end.
Definition power_of_two (value : Z) : Z := power_of_two_loop 33 value 0.

(** What one iteration of an optimization loop does to the table: the entries
    g_opPtr[at_], g_opPtr[at_ + 1], ... are overwritten with [put]
    (popt_DeletePCode and its variants write a NOP, popt_peephole.c:353-420),
    popt_OptimizePush is called for the pointers [opts] of the updated pointer
    list, the next position examined is [next] and nchanges is increased by
    [chg].  [Crash]: undefined behaviour of the optimizer. *)
Inductive rout :=
| Crash
| Rw (at_ : nat) (put : list opType) (opts : list nat) (next chg : nat).

Definition nop : opType := mkOp oNOP 0 0.

Definition put_slot (t : list opType) (p : nat) (o : opType) : list opType :=
  match nth_error t p with
  | Some _ => firstn p t ++ o :: skipn (S p) t
  | None => t
  end.
Fixpoint put_slots (t : list opType) (ps : list nat) (put : list opType) : list opType :=
  match ps, put with
  | p :: ps', o :: put' => put_slots (put_slot t p o) ps' put'
  | _, _ => t
  end.
(** popt_OptimizePush(g_opPtr[k]); g_opPtr[k] is NULL behind the last pointer *)
Definition opt_at (t : list opType) (k : nat) : list opType :=
  match nth_error (slots t) k with
  | Some p => match nth_error t p with
              | Some o => put_slot t p (optimize_push o)
              | None => t
              end
  | None => t
  end.
Definition rewrite_at (t : list opType) (at_ : nat) (put : list opType) (opts : list nat) :=
  fold_left opt_at opts (put_slots t (skipn at_ (slots t)) put).

(** The result of one iteration on the table: new table, next position, number of
    changes *)
Inductive tout :=
| Done                       (* the loop condition is false *)
| Broken                     (* undefined behaviour *)
| Next (t : list opType) (next chg : nat).

Definition table_step (body : list opType -> nat -> option rout) (t : list opType) (i : nat) : tout :=
  match body (visible t) i with
  | None => Done
  | Some Crash => Broken
  | Some (Rw a p os nx ch) => Next (rewrite_at t a p os) nx ch
  end.

(** Result of running a loop *)
Inductive lout :=
| Diverges                   (* fuel exhausted *)
| Breaks                     (* undefined behaviour *)
| Result (t : list opType) (chg : nat).

Fixpoint pass (n : nat) (step : list opType -> nat -> tout) (t : list opType) (i c : nat) : lout :=
  match n with
  | O => Diverges
  | S n' =>
    match step t i with
    | Done => Result t c
    | Broken => Breaks
    | Next t' nx ch => pass n' step t' nx (c + ch)
    end
  end.

(** ------------------------------------------------------------------ *)
(** popt_UnaryOptimize, popt_constants.c:60-617.  [a] and [b] are the entries
    at positions [i] and [i+1]. *)

Definition cpush (o : opType) (v : Z) : opType := set_arg2 o v.
Definition btrue (b : bool) : Z := if b then 65535 else 0.

Section Unary.
  Variables (i : nat) (a b : opType).
  (* a after popt_ExpandPush *)
  Let a' := expand_push a.
  Let c := arg2 a'.
  Definition u_skip := Rw i [a'] [i] (S i) 0.
  Definition u_fold (v : Z) := Rw i [set_arg2 a' v; nop] [i] i 1.
  Definition u_drop := Rw i [nop; nop] [i] i 1.
  Definition u_to (o : Z) := Rw i [nop; set_op b o] [i] i 1.
  Definition u_two (o1 o2 : Z) := Rw i [mkOp o1 (arg1 a') 0; set_op b o2] [i] i 1.
  Definition u_jump (taken : bool) := if taken then u_to oJMP else u_drop.
  (* comparison with 0, 1 or -1 :304-466 *)
  Definition u_cmp (z : Z) :=
    if c =? 0 then u_to z
    else if c =? 1 then u_two oDEC z
    else if s16 c =? -1 then u_two oINC z
    else u_skip.
  (* :168-208 *)
  Definition u_muldiv (shift : Z) :=
    if c =? 1 then u_drop
    else let temp := power_of_two c in
         if 1 <=? temp then Rw i [set_arg2 a' (u16 temp); set_op b shift] [i] i 1
         else u_skip.

  Definition unary_push : rout :=
    match decode_op8 (op b) with
    | Some NEG => u_fold (u16 (- c))
    | Some ABS => u_fold (if s16 c <? 0 then u16 (- s16 c) else c)
    | Some INC => u_fold (u16 (c + 1))
    | Some DEC => u_fold (u16 (c - 1))
    | Some NOT => u_fold (u16 (Z.lnot c))
    | Some ADD => if c =? 0 then u_drop else if c =? 1 then u_to oINC
                  else if c =? 65535 then u_to oDEC else u_skip
    | Some SUB => if c =? 0 then u_drop else if c =? 1 then u_to oDEC
                  else if c =? 65535 then u_to oINC else u_skip
    | Some MUL | Some UMUL => u_muldiv oSLL
    | Some DIV => u_muldiv oSRA
    | Some UDIV => u_muldiv oSRL
    | Some SLL | Some SRL | Some SRA | Some OR => if c =? 0 then u_drop else u_skip
    | Some AND => if c =? 65535 then u_drop else u_skip
    | Some EQUZ => u_fold (btrue (c =? 0))
    | Some NEQZ => u_fold (btrue (negb (c =? 0)))
    | Some LTZ => u_fold (btrue (s16 c <? 0))
    | Some GTEZ => u_fold (btrue (0 <=? s16 c))
    | Some GTZ => u_fold (btrue (0 <? c))       (* arg2 is unsigned :289 *)
    | Some LTEZ => u_fold (btrue (c <=? 0))     (* :297 *)
    | Some EQU => u_cmp oEQUZ
    | Some NEQ => u_cmp oNEQZ
    | Some LT => u_cmp oLTZ
    | Some GTE => u_cmp oGTEZ
    | Some GT => u_cmp oGTZ
    | Some LTE => u_cmp oLTEZ
    | _ =>
      match decode_op24 (op b) with
      | Some JEQUZ => u_jump (c =? 0)
      | Some JNEQZ => u_jump (negb (c =? 0))
      | Some JLTZ => u_jump (s16 c <? 0)
      | Some JGTEZ => u_jump (0 <=? s16 c)
      | Some JGTZ => u_jump (0 <? c)            (* unsigned :527 *)
      | Some JLTEZ => u_jump (c <=? 0)          (* :541 *)
      | _ => u_skip
      end
    end.

  Definition unary_step : rout :=
    if check_push a then unary_push
    else if (op a =? oINDS) || (op a =? oINCS) then
      if op b =? op a then Rw i [set_arg2 a (u16 (arg2 a + arg2 b)); nop] [] i 1
      else Rw i [] [] (S i) 0
    else if op a =? oINC then
      if op b =? oDEC then Rw i [nop; nop] [] i 1 else Rw i [] [] (S i) 0
    else if op a =? oDEC then
      if op b =? oINC then Rw i [nop; nop] [] i 1 else Rw i [] [] (S i) 0
    else Rw i [] [] (S i) 0.
End Unary.

Definition unary_body (v : list opType) (i : nat) : option rout :=
  match skipn i v with
  | a :: b :: _ => Some (unary_step i a b)
  | _ => None
  end.

(** ------------------------------------------------------------------ *)
(** popt_BinaryOptimize, popt_constants.c:621-1384.  [a], [b], [o] are the
    entries at positions [i], [i+1], [i+2]. *)

Section Binary.
  Variables (i : nat) (a b o : opType).
  Let a' := expand_push a.
  Let b' := expand_push b.
  Definition stay : rout := Rw i [] [] (S i) 0.

  (** two constants :643-813 *)
  Definition b_fold (v : Z) := Rw i [set_arg2 a' v; nop; nop] [i; S i] i 1.
  Definition binary_consts : rout :=
    let x := arg2 a' in let y := arg2 b' in
    match decode_op8 (op o) with
    | Some ADD => b_fold (u16 (x + y))
    | Some SUB => b_fold (u16 (x - y))
    | Some MUL | Some UMUL =>
        (* uint16_t operands promoted to int :670 *)
        if int_ok (x * y) then b_fold (u16 (x * y)) else Crash
    | Some DIV => (* arg2 / signExtend16(arg2) :676 *)
        if s16 y =? 0 then Crash else b_fold (u16 (Z.quot x (s16 y)))
    | Some MOD | Some UMOD => if y =? 0 then Crash else b_fold (x mod y)
    | Some OR => b_fold (Z.lor x y)
    | Some AND => b_fold (Z.land x y)
    | Some EQU => b_fold (btrue (x =? y))
    | Some NEQ => b_fold (btrue (negb (s16 x =? s16 y)))
    | Some LT | Some ULT => b_fold (btrue (s16 x <? s16 y))
    | Some GTE | Some UGTE => b_fold (btrue (s16 y <=? s16 x))
    | Some GT | Some UGT => b_fold (btrue (s16 y <? s16 x))
    | Some LTE | Some ULTE => b_fold (btrue (s16 x <=? s16 y))
    | _ => Rw i [a'; b'] [i; S i] i 0        (* default: break :802 *)
    end.

  (** constant, then frame or address load :819-1029 *)
  Definition f_skip := Rw i [a'] [i] (S i) 0.
  Definition f_drop := Rw i [nop; b; nop] [i] i 1.
  Definition f_to (z : Z) := Rw i [nop; b; set_op o z] [i] i 1.
  Definition f_zero (z : Z) := if arg2 a' =? 0 then f_to z else f_skip.
  Definition f_mul (x : Z) : rout :=
    if x =? 1 then f_drop
    else let temp := power_of_two x in
         if (1 <=? temp) && (temp <=? 14) then    (* 2 .. 16384 :890-903 *)
           Rw i [b; mkOp oPUSH 0 temp; set_op o oSLL] [i] i 1
         else f_skip.
  Definition binary_frame : rout :=
    let x := arg2 a' in
    match decode_op8 (op o) with
    | Some ADD => if x =? 0 then f_drop else if x =? 1 then f_to oINC
                  else if x =? 65535 then f_to oDEC else f_skip
    | Some SUB => (* :863-868: the NEG is written into entry i, which is deleted *)
                  if x =? 0 then Rw i [nop; b; o] [i] i 1 else f_skip
    | Some MUL | Some UMUL => f_mul x
    | Some OR => if x =? 0 then f_drop else f_skip
    | Some AND => if x =? 65535 then f_drop else f_skip
    | Some EQU => f_zero oEQUZ
    | Some NEQ => f_zero oNEQZ
    | Some LT => f_zero oGTEZ
    | Some GTE => f_zero oLTZ
    | Some GT => f_zero oLTEZ
    | Some LTE => f_zero oGTZ
    | _ => f_skip
    end.

  (** address, then constant, then operator :1047-1080 *)
  Definition x_skip := Rw i [a; b'] [S i] (S i) 0.
  Definition binary_address : rout :=
    match decode_op8 (op o) with
    | Some ADD => Rw i [set_arg2 a (u16 (arg2 a + arg2 b')); nop; nop] [S i] i 1
    | Some SUB => Rw i [set_arg2 a (u16 (arg2 a - arg2 b')); nop; nop] [S i] i 1
    | _ => x_skip
    end.

  (** anything, then constant, then operator :1083-1271 *)
  Definition x_drop := Rw i [a; nop; nop] [S i] i 1.
  Definition x_to (z : Z) := Rw i [a; nop; set_op o z] [S i] i 1.
  Definition binary_any : rout :=
    let y := arg2 b' in
    match decode_op8 (op o) with
    | Some ADD => if y =? 1 then x_to oINC else if y =? 0 then x_drop
                  else if y =? 65535 then x_to oDEC else x_skip
    | Some SUB => if y =? 1 then x_to oDEC else if y =? 0 then x_drop
                  else if y =? 65535 then x_to oINC else x_skip
    | Some MUL => if y =? 1 then x_drop else if y =? 65535 then x_to oNEG else x_skip
    | Some UMUL | Some DIV => if y =? 1 then x_drop else x_skip
    | Some UDIV => if y =? 1 then x_drop else if y =? 65535 then x_to oNEG else x_skip
    | Some OR => if y =? 0 then x_drop else x_skip
    | Some AND => if y =? 65535 then x_drop else x_skip
    | _ => x_skip
    end.

  (** constant, then load, then operator :1281-1340 *)
  Definition binary_swap : rout :=
    if check_transitive o then Rw i [b; a'; o] [S i] i 1
    else match decode_op8 (op o) with
         | Some SUB => if arg2 a' =? 0 then Rw i [nop; b; nop] [i] i 1 else f_skip
         | _ => f_skip
         end.

  Definition binary_step : rout :=
    if check_push a && check_push b && check_binary o then binary_consts
    else if check_push a && one_of [oLDS; oLDSB; oULDSB; oLAS; oLAC; oLAR] b then binary_frame
    else if check_push b && check_binary o then
      if check_address a then binary_address else binary_any
    else if check_push a && check_load b && check_binary o then binary_swap
    else if op a =? oNEG then
      (* :1355-1376; the second test examines op[i] and never holds *)
      if op b =? oADD then Rw i [nop; set_op b oSUB] [] i 1 else stay
    else stay.
End Binary.

Definition binary_body (v : list opType) (i : nat) : option rout :=
  match skipn i v with
  | a :: b :: o :: _ => Some (binary_step i a b o)
  | _ => None
  end.

(** ------------------------------------------------------------------ *)
(** popt_BranchOptimize, popt_branch.c:55-557 *)

Section Branch.
  Variables (i : nat) (a b : opType).
  Definition br_to (z : Z) := Rw i [nop; set_op b z] [] i 1.
  Definition br_first (z : Z) := Rw i [set_op a z; nop] [] i 1.
  (** comparison followed by NOT, JEQUZ, JNEQZ: [n] the inverse comparison,
      [jf] the jump if false, [jt] the jump if true *)
  Definition br_cmp (n jf jt : Z) : rout :=
    if op b =? oNOT then br_first n
    else if op b =? oJEQUZ then br_to jf
    else if op b =? oJNEQZ then br_to jt
    else stay i.
  Definition branch_step : rout :=
    match decode_op8 (op a) with
    | Some NOT => if op b =? oJEQUZ then br_to oJNEQZ
                  else if op b =? oJNEQZ then br_to oJEQUZ else stay i
    | Some NEG => if op b =? oJLTZ then br_to oJGTZ
                  else if op b =? oJGTEZ then br_to oJLTEZ
                  else if op b =? oJGTZ then br_to oJLTZ
                  else if op b =? oJLTEZ then br_to oJGTEZ else stay i
    | Some EQU => br_cmp oNEQ oJNEQ oJEQU
    | Some NEQ => br_cmp oEQU oJEQU oJNEQ
    | Some LT => br_cmp oGTE oJGTE oJLT
    | Some GTE => br_cmp oLT oJLT oJGTE
    | Some GT => br_cmp oLTE oJLTE oJGT
    | Some LTE => br_cmp oGT oJGT oJLTE
    | Some ULT => br_cmp oUGTE oJUGTE oJULT
    | Some UGTE => br_cmp oULT oJULT oJUGTE
    | Some UGT => br_cmp oULTE oJULTE oJUGT
    | Some ULTE => br_cmp oUGT oJUGT oJULTE
    | Some EQUZ => br_cmp oNEQZ oJNEQZ oJEQUZ
    | Some NEQZ => br_cmp oEQUZ oJEQUZ oJNEQZ    (* the jumps stay as they are :415-418 *)
    | Some LTZ => br_cmp oGTEZ oJGTEZ oJLTZ
    | Some GTEZ => br_cmp oLTZ oJLTZ oJGTEZ
    | Some GTZ => br_cmp oLTEZ oJLTEZ oJGTZ
    | Some LTEZ => br_cmp oGTZ oJGTZ oJLTEZ
    | _ => stay i
    end.
End Branch.

Definition branch_body (v : list opType) (i : nat) : option rout :=
  match skipn i v with
  | a :: b :: _ => Some (branch_step i a b)
  | _ => None
  end.

(** ------------------------------------------------------------------ *)
(** popt_StackOrderOptimize, popt_loadstore.c:60-140.  [z], [a], [b] are the
    entries at positions [i-2], [i-1], [i].  nchanges is never incremented. *)
Section StackOrder.
  Variables (j : nat) (z a b : opType).           (* j = i - 2 *)
  Definition so_next : rout := Rw j [] [] (S (S (S j))) 0.
  Definition stack_step : rout :=
    if op b =? oXCHG then
      if check_load a && check_load z then Rw j [a; z; nop] [] (S (S j)) 0 else so_next
    else if op b =? oINDS then
      if (s16 (arg2 b) <=? -2) && (check_load a || (op a =? oDUP)) then
        (* g_opPtr[i]->arg2 == -sINT_SIZE compares a uint16_t with an int:
           never true :100 *)
        Rw j [z; nop; set_arg2 b (u16 (arg2 b + 2))] [] (S (S j)) 0
      else if (s16 (arg2 b) <=? -2) && check_store a && (op z =? oDUP) then
        Rw j [nop; a; set_arg2 b (u16 (arg2 b + 2))] [] (S (S j)) 0
      else so_next
    else so_next.
End StackOrder.

Definition stack_body (v : list opType) (i : nat) : option rout :=
  match i with
  | S (S j) => match skipn j v with
               | z :: a :: b :: _ => Some (stack_step j z a b)
               | _ => None
               end
  | _ => None
  end.

(** ------------------------------------------------------------------ *)
(** popt_LoadOptimize, popt_loadstore.c:143-300 *)

Definition same_op (a b : opType) : bool :=
  (op b =? op a) && (arg1 b =? arg1 a) && (arg2 b =? arg2 a).

Definition unindexed (o : Z) : option Z :=
  if o =? oLDX then Some oLD else if o =? oLDSX then Some oLDS
  else if o =? oLDXB then Some oLDB else if o =? oLDSXB then Some oLDSB
  else if o =? oULDXB then Some oULDB else if o =? oULDSXB then Some oULDSB
  else if o =? oLAX then Some oLA else if o =? oLASX then Some oLAS else None.

Section LoadOpt.
  Variables (i : nat) (a b : opType) (r : list opType).   (* r: the entries from i+2 on *)
  Definition load_step : rout :=
    if one_of [oLD; oLDB; oULDB; oLDS; oLDSB; oULDSB] a then
      if same_op a b then Rw i [a; mkOp oDUP 0 0] [] (S (S i)) 1 else stay i
    else if check_push a then
      let val := arg2 (expand_push a) in
      match unindexed (op b) with
      | Some z => Rw i [nop; mkOp z (arg1 b) (u16 (arg2 b + val))] [] i 1
      | None =>
        match r with
        | o :: _ =>
          if check_load b then
            if op o =? oLDXM then Rw i [nop; b; mkOp oLDM (arg1 o) (u16 (arg2 o + val))] [] i 1
            else if op o =? oLDSXM then Rw i [nop; b; mkOp oLDSM (arg1 o) (u16 (arg2 o + val))] [] i 1
            else stay i
          else stay i
        | [] => stay i
        end
      end
    else stay i.
End LoadOpt.

Definition load_body (v : list opType) (i : nat) : option rout :=
  match skipn i v with
  | a :: b :: r => Some (load_step i a b r)
  | _ => None
  end.

(** ------------------------------------------------------------------ *)
(** popt_StoreOptimize, popt_loadstore.c:304-423 *)
Definition store_load (st ld : Z) : bool :=
  ((st =? oST) && (ld =? oLD)) || ((st =? oSTB) && (ld =? oLDB)) ||
  ((st =? oSTS) && (ld =? oLDS)) || ((st =? oSTSB) && (ld =? oLDSB)).

Section StoreOpt.
  Variables (i : nat) (a b : opType) (r : list opType).
  Definition store_step : rout :=
    if check_store a then
      if (arg1 a =? arg1 b) && (arg2 a =? arg2 b) && store_load (op a) (op b) then
        Rw i [mkOp oDUP 0 0; set_op b (op a)] [] (S (S i)) 1
      else stay i
    else if op a =? oPUSH then
      match r with
      | o :: _ =>
        if op o =? oSTSX then Rw i [nop; b; mkOp oSTS (arg1 o) (u16 (arg2 o + arg2 a))] [] i 1
        else if op o =? oSTSXB then Rw i [nop; b; mkOp oSTSB (arg1 o) (u16 (arg2 o + arg2 a))] [] i 1
        else stay i
      | [] => stay i
      end
    else if (op a =? oPUSHB) || (op a =? oUPUSHB) then
      match r with
      | o :: _ =>
        if op o =? oSTSXB then
          let offset := if op a =? oPUSHB then s8 (arg1 a) else arg1 a in
          Rw i [nop; b; mkOp oSTSB (arg1 o) (u16 (arg2 o + offset))] [] i 1
        else stay i
      | [] => stay i
      end
    else stay i.
End StoreOpt.

Definition store_body (v : list opType) (i : nat) : option rout :=
  match skipn i v with
  | a :: b :: r => Some (store_step i a b r)
  | _ => None
  end.
