(** The p-code interpreter, insn16/libexec/libexec_run.c.  Definitions only. *)

From Coq Require Import ZArith Bool List.
From Verif Require Import Words State Opcodes SetModel LongModel.
Import ListNotations.
Open Scope Z_scope.

(** Frame layout :76-95 *)
Definition FSLINK := 0.
Definition FDLINK := 2.
Definition FRET := 4.
Definition FCSP := 6.
Definition FLEVEL := 8.
Definition FBASE := 10.
Definition FSIZE := 10.

(** ------------------------------------------------------------------ *)
(** Procedure call *)

Inductive search_result :=
| Found (frame : Z) | NotFound | SearchUB | SearchHang.

(** The frame search of libexec_ProcedureCall :146-176.  frameAddr is a
    uint16_t and the memory does not change during the search, so a search of
    more than 65536 steps never ends. *)
Fixpoint frame_search (n : nat) (s : st) (findLevel frameAddr : Z) : search_result :=
  match n with
  | O => SearchHang
  | S n' =>
    match rd s (frameAddr / 2 + FLEVEL / 2) with
    | None => SearchUB
    | Some w =>
      let prevLevel := Z.land w 0xff in
      if negb (findLevel =? 0) && (prevLevel =? 0) then NotFound
      else if findLevel =? prevLevel then Found frameAddr
      else match rd s (frameAddr / 2 + FSLINK / 2) with
           | None => SearchUB
           | Some link => frame_search n' s findLevel (u16 (link - FSLINK))
           end
    end
  end.

Definition search_bound : nat := Z.to_nat 65537.

(** libexec_ProcedureCall :121-212 *)
Definition procedure_call (s : st) (level : Z) : outcome :=
  if level =? 0 then Err eNESTINGLEVEL s else
  match frame_search search_bound s (u16 (level - 1)) (u16 (fp s - FSLINK)) with
  | NotFound => Err eNESTINGLEVEL s
  | SearchUB => UB
  | SearchHang => Hang
  | Found frameAddr =>
    let s1 := with_sp s (u16 (sp s + 2)) in
    let cur := sp s1 / 2 in
    let newFP := u16 (sp s1 + FSLINK) in
    let s2 := with_sp s1 (u16 (sp s1 + (FSIZE - 2))) in
    s3 <- wr s2 (cur + FSLINK / 2) frameAddr ;;
    s4 <- wr s3 (cur + FDLINK / 2) (fp s) ;;
    s5 <- wr s4 (cur + FRET / 2) (pc s + 4) ;;
    s6 <- wr s5 (cur + FCSP / 2) (csp s) ;;
    s7 <- wr s6 (cur + FLEVEL / 2) (Z.lor (Z.shiftl (lsp s) 8) level) ;;
    Ok (with_fp (with_lsp s7 level) newFP)
  end.

(** libexec_GetBaseAddress :228-262.  [lvl] static links are followed. *)
Fixpoint follow_links (s : st) (lvl : nat) (base : Z) : option Z :=
  match lvl with
  | O => Some base
  | S l => b <-? rd s (base / 2) ;; follow_links s l b
  end.

Definition get_base (s : st) (lvl off : Z) : option Z :=
  b <-? follow_links s (Z.to_nat lvl) (fp s) ;;
  let b := u16 (b + off) in
  Some (if 0 <=? off then u16 (b + FBASE) else b).

(** ------------------------------------------------------------------ *)
(** Multiple load and store loops.  An iteration handles two bytes, the last
    one possibly a single byte; [n] is the number of iterations left. *)

(** :541-556, :919-934, :1006-1021, :1180-1195, :1258-1273 *)
Fixpoint load_loop (n : nat) (s : st) (size addr : Z) : option st :=
  match n with
  | O => Some s
  | S n' =>
    if 2 <=? size then
      v <-? getstack s addr ;; s <-? push s v ;;
      load_loop n' s (size - 2) (u16 (addr + 2))
    else
      v <-? rdb s addr ;; s <-? push s v ;;
      load_loop n' s (size - 1) (u16 (addr + 1))
  end.

Definition load_multi (s : st) (size addr : Z) : option st :=
  load_loop (Z.to_nat (roundbtoi size)) s size addr.

(** :596-611, :956-971, :1048-1063, :1219-1234, :1300-1315; [k] is the
    (int16_t) stack offset of the next word *)
Fixpoint store_loop (n : nat) (s : st) (size addr k : Z) : option st :=
  match n with
  | O => Some s
  | S n' =>
    v <-? tos s k ;;
    if 2 <=? size then
      s <-? putstack s v addr ;;
      store_loop n' s (size - 2) (u16 (addr + 2)) (s16 (k - 1))
    else
      s <-? wrb s addr v ;;
      store_loop n' s (size - 1) (u16 (addr + 1)) k
  end.

Definition store_multi (s : st) (size addr k : Z) : option st :=
  store_loop (Z.to_nat (roundbtoi size)) s size addr k.

(** ------------------------------------------------------------------ *)
(** 8-bit instructions *)

(** One operand on the top of the stack replaced :283-307 *)
Definition unary (f : Z -> Z) (s : st) : outcome :=
  v <- tos s 0 ;; ret (puttos s 0 (f v)).

(** Two operands, the right one popped, the left one replaced :311-388.
    [f left right]; [None] is undefined behaviour. *)
Definition binary (f : Z -> Z -> option Z) (s : st) : outcome :=
  '(b, s) <- pop s ;; a <- tos s 0 ;; r <- f a b ;; ret (puttos s 0 r).

(** Comparison with zero: pop, push :392-460 *)
Definition cmpz (f : Z -> bool) (s : st) : outcome :=
  '(a, s) <- pop s ;; ret (push s (pbool (f (s16 a)))).

(** Comparisons :464-576: pop the right one, compare with the left one *)
Definition scmp (f : Z -> Z -> bool) : st -> outcome :=
  binary (fun a b => Some (pbool (f (s16 a) (s16 b)))).
Definition ucmp (f : Z -> Z -> bool) : st -> outcome :=
  binary (fun a b => Some (pbool (f a b))).

(** Operands are promoted to int (32 bits); shift counts outside of 0..31 are
    undefined; << on a negative int has gcc's semantics. *)
Definition shift16 (f : Z -> Z -> Z) (a n : Z) : option Z :=
  if (0 <=? n) && (n <? 32) then Some (u16 (f a n)) else None.

(** oUMUL :326-329: uint16_t operands promoted to int: the product of two
    large words overflows int, which is undefined *)
Definition umul16 (a b : Z) : option Z :=
  if int_ok (a * b) then Some (u16 (a * b)) else None.

Definition next (n : Z) (o : outcome) : outcome :=
  match o with
  | Ok s => Ok (with_pc s (u16 (pc s + n)))
  | Err e s => Err e (with_pc s (u16 (pc s + n)))
  | r => r
  end.

(** oRET :628-652 *)
Definition exec_ret (s : st) : outcome :=
  '(w, s) <- pop s ;;
  let s := with_lsp s (w / 256) in
  '(c, s) <- pop s ;; let s := with_csp s c in
  '(p, s) <- pop s ;; let s := with_pc s p in
  '(f, s) <- pop s ;; let s := with_fp s f in
  Ok (discard s 1).

(** The effect of the instructions of pexec8 :272-688, except for the program
    counter (oRET and oEND are treated in [pexec8]) *)
Definition exec8 (o : op8) (s : st) : outcome :=
  match o with
  | NEG => unary (fun v => u16 (- s16 v)) s
  | ABS => v <- tos s 0 ;;
           if s16 v <? 0 then ret (puttos s 0 (u16 (- s16 v))) else Ok s
  | INC => unary (fun v => u16 (v + 1)) s
  | DEC => unary (fun v => u16 (v - 1)) s
  | NOT => unary (fun v => u16 (Z.lnot v)) s
  | ADD => binary (fun a b => Some (u16 (s16 a + s16 b))) s
  | SUB => binary (fun a b => Some (u16 (s16 a - s16 b))) s
  | MUL => binary (fun a b => Some (u16 (s16 a * s16 b))) s
  | UMUL => binary umul16 s
  | DIV => binary (fun a b => if s16 b =? 0 then None else Some (u16 (Z.quot (s16 a) (s16 b)))) s
  | UDIV => binary (fun a b => if b =? 0 then None else Some (a / b)) s
  | MOD => binary (fun a b => if s16 b =? 0 then None else Some (u16 (Z.rem (s16 a) (s16 b)))) s
  | UMOD => binary (fun a b => if b =? 0 then None else Some (a mod b)) s
  | SLL => binary (fun a n => shift16 Z.shiftl (s16 a) (s16 n)) s
  | SRL => binary (fun a n => shift16 Z.shiftr a (s16 n)) s
  | SRA => binary (fun a n => shift16 Z.shiftr (s16 a) (s16 n)) s
  | OR => binary (fun a b => Some (Z.lor a b)) s
  | AND => binary (fun a b => Some (Z.land a b)) s
  | XOR => binary (fun a b => Some (Z.lxor a b)) s
  | EQUZ => cmpz (fun a => a =? 0) s
  | NEQZ => cmpz (fun a => negb (a =? 0)) s
  | LTZ => cmpz (fun a => a <? 0) s
  | GTEZ => cmpz (fun a => 0 <=? a) s
  | GTZ => cmpz (fun a => 0 <? a) s
  | LTEZ => cmpz (fun a => a <=? 0) s
  | EQU => scmp (fun a b => b =? a) s
  | NEQ => scmp (fun a b => negb (b =? a)) s
  | LT => scmp (fun a b => a <? b) s          (* sparm > TOS *)
  | GTE => scmp (fun a b => b <=? a) s        (* sparm <= TOS *)
  | GT => scmp (fun a b => b <? a) s          (* sparm < TOS *)
  | LTE => scmp (fun a b => a <=? b) s        (* sparm >= TOS *)
  | ULT => ucmp (fun a b => a <? b) s
  | UGTE => ucmp (fun a b => b <=? a) s
  | UGT => ucmp (fun a b => b <? a) s
  | ULTE => ucmp (fun a b => a <=? b) s
  | LDI => a <- tos s 0 ;; v <- getstack s a ;; ret (puttos s 0 v)
  | LDIB => a <- tos s 0 ;; v <- rdb s a ;; ret (puttos s 0 (u16 (s8 v)))
  | ULDIB => a <- tos s 0 ;; v <- rdb s a ;; ret (puttos s 0 v)
  | LDIM => '(size, s) <- pop s ;; '(addr, s) <- pop s ;; ret (load_multi s size addr)
  | DUP => v <- tos s 0 ;; ret (push s v)
  | XCHG => v0 <- tos s 0 ;; v1 <- tos s 1 ;; s <- puttos s 0 v1 ;; ret (puttos s 1 v0)
  | STI => '(v, s) <- pop s ;; '(a, s) <- pop s ;; ret (putstack s v a)
  | STIB => '(v, s) <- pop s ;; '(a, s) <- pop s ;; ret (wrb s a v)
  | STIM => '(size, s) <- pop s ;;
            let k := s16 (roundbtoi size) in
            addr <- tos s k ;;
            s <- store_multi s size addr (s16 (k - 1)) ;;
            Ok (discard s (roundbtoi size + 1))
  | NOP => Ok s
  | RET => exec_ret s
  | END => Err eEXIT s
  end.

(** pexec8 :272-688 *)
Definition pexec8 (s : st) (opcode : Z) : outcome :=
  match decode_op8 opcode with
  | Some RET => exec_ret s
  | Some END => Err eEXIT s
  | Some o => next 1 (exec8 o s)
  | None => Err eILLEGALOPCODE s
  end.

(** ------------------------------------------------------------------ *)
(** pexec16 :698-741.  The program counter is incremented first. *)
Definition pexec16 (s : st) (opcode imm8 : Z) : outcome :=
  let s := with_pc s (u16 (pc s + 2)) in
  match decode_op16 opcode with
  | Some PUSHB => ret (push s (u16 (s8 imm8)))
  | Some UPUSHB => ret (push s imm8)
  | Some FLOAT => Ext
  | Some SETOP => set_operation s imm8
  | Some OSOP => Ext
  | Some LONGOP8 => long_operation8 s imm8
  | None => Err eILLEGALOPCODE s
  end.

(** ------------------------------------------------------------------ *)
(** pexec24 :751-1137 *)

Definition jump (b : bool) (s : st) (imm16 : Z) : outcome :=
  Ok (with_pc s (if b then imm16 else u16 (pc s + 3))).
Definition jumpz (f : Z -> bool) (s : st) (imm16 : Z) : outcome :=
  '(a, s) <- pop s ;; jump (f (s16 a)) s imm16.
(** [f second first]: sparm2 op sparm1 *)
Definition jump2 (f : Z -> Z -> bool) (s : st) (imm16 : Z) : outcome :=
  '(p1, s) <- pop s ;; '(p2, s) <- pop s ;; jump (f p2 p1) s imm16.
Definition sjump2 (f : Z -> Z -> bool) : st -> Z -> outcome :=
  jump2 (fun a b => f (s16 a) (s16 b)).

(** Everything but the jumps and the calls of external libraries.
    [a] is st->spb + imm16 *)
Definition exec24 (o : op24) (s : st) (imm16 : Z) : outcome :=
  let base := c_spb (cf s) + imm16 in
  let a := u16 base in
  match o with
  | LD => v <- getstack s a ;; ret (push s v)
  | LDB => v <- rdb s a ;; ret (push s (u16 (s8 v)))
  | ULDB => v <- rdb s a ;; ret (push s v)
  | LDM => '(size, s) <- pop s ;; ret (load_multi s size a)
  | ST => '(v, s) <- pop s ;; ret (putstack s v a)
  | STB => '(v, s) <- pop s ;; ret (wrb s a v)
  | STM => '(size, s) <- pop s ;;
           s <- store_multi s size a (s16 (roundbtoi size - 1)) ;;
           Ok (discard s (roundbtoi size))
  | LDX => i <- tos s 0 ;; v <- getstack s (u16 (base + i)) ;; ret (puttos s 0 v)
  | LDXB => i <- tos s 0 ;; v <- rdb s (u16 (base + i)) ;; ret (puttos s 0 (u16 (s8 v)))
  | ULDXB => i <- tos s 0 ;; v <- rdb s (u16 (base + i)) ;; ret (puttos s 0 v)
  | LDXM => '(size, s) <- pop s ;; '(i, s) <- pop s ;;
            ret (load_multi s size (u16 (i + base)))
  | STX => '(v, s) <- pop s ;; '(i, s) <- pop s ;; ret (putstack s v (u16 (i + base)))
  | STXB => '(v, s) <- pop s ;; '(i, s) <- pop s ;; ret (wrb s (u16 (i + base)) v)
  | STXM => '(size, s) <- pop s ;;
            let k := s16 (roundbtoi size) in
            i <- tos s k ;;
            s <- store_multi s size (u16 (i + base)) (s16 (k - 1)) ;;
            Ok (discard s (roundbtoi size + 1))
  | LA => ret (push s a)
  | LAX => i <- tos s 0 ;; ret (puttos s 0 (u16 (base + i)))
  | PUSH => ret (push s imm16)
  | INDS => Ok (with_sp s (u16 (sp s + s16 imm16)))
  | INCS => Ok (with_csp s (u16 (csp s + s16 imm16)))
  | LAC => ret (push s (u16 (imm16 + c_rop (cf s))))
  | LAR => ret (push s (u16 (imm16 + sp s)))
  | STRLIB | SYSIO => Ext
  | _ => Err eILLEGALOPCODE s   (* jumps: see pexec24 *)
  end.

Definition pexec24 (s : st) (opcode imm16 : Z) : outcome :=
  match decode_op24 opcode with
  | Some JMP => jump true s imm16
  | Some JEQUZ => jumpz (fun a => a =? 0) s imm16
  | Some JNEQZ => jumpz (fun a => negb (a =? 0)) s imm16
  | Some JLTZ => jumpz (fun a => a <? 0) s imm16
  | Some JGTEZ => jumpz (fun a => 0 <=? a) s imm16
  | Some JGTZ => jumpz (fun a => 0 <? a) s imm16
  | Some JLTEZ => jumpz (fun a => a <=? 0) s imm16
  | Some JEQU => sjump2 (fun p2 p1 => p2 =? p1) s imm16
  | Some JNEQ => sjump2 (fun p2 p1 => negb (p2 =? p1)) s imm16
  | Some JLT => sjump2 (fun p2 p1 => p2 <? p1) s imm16
  | Some JGTE => sjump2 (fun p2 p1 => p1 <=? p2) s imm16
  | Some JGT => sjump2 (fun p2 p1 => p1 <? p2) s imm16
  | Some JLTE => sjump2 (fun p2 p1 => p2 <=? p1) s imm16
  | Some JULT => jump2 (fun p2 p1 => p2 <? p1) s imm16
  | Some JUGTE => jump2 (fun p2 p1 => p1 <=? p2) s imm16
  | Some JUGT => jump2 (fun p2 p1 => p1 <? p2) s imm16
  | Some JULTE => jump2 (fun p2 p1 => p2 <=? p1) s imm16
  | Some o => next 3 (exec24 o s imm16)
  | None => Err eILLEGALOPCODE (with_pc s (u16 (pc s + 3)))
  end.

(** ------------------------------------------------------------------ *)
(** pexec32 :1147-1362.  The case oLONGOP24 of the C switch is dead code: the
    value of oLONGOP24 is 0x7f, which libexec_Execute never passes here. *)
Definition exec32 (o : op32) (s : st) (imm8 imm16 : Z) : outcome :=
  let off := s16 imm16 in
  match o with
  | LDS => a <- get_base s imm8 off ;; v <- getstack s a ;; ret (push s v)
  | LDSB => a <- get_base s imm8 off ;; v <- rdb s a ;; ret (push s (u16 (s8 v)))
  | ULDSB => a <- get_base s imm8 off ;; v <- rdb s a ;; ret (push s v)
  | LDSM => '(size, s) <- pop s ;; a <- get_base s imm8 off ;; ret (load_multi s size a)
  | STS => a <- get_base s imm8 off ;; '(v, s) <- pop s ;; ret (putstack s v a)
  | STSB => a <- get_base s imm8 off ;; '(v, s) <- pop s ;; ret (wrb s a v)
  | STSM => '(size, s) <- pop s ;; a <- get_base s imm8 off ;;
            s <- store_multi s size a (s16 (roundbtoi size - 1)) ;;
            Ok (discard s (roundbtoi size))
  | LDSX => i <- tos s 0 ;; a <- get_base s imm8 (off + i) ;;
            v <- getstack s a ;; ret (puttos s 0 v)
  | LDSXB => i <- tos s 0 ;; a <- get_base s imm8 (off + i) ;;
             v <- rdb s a ;; ret (puttos s 0 (u16 (s8 v)))
  | ULDSXB => i <- tos s 0 ;; a <- get_base s imm8 (off + i) ;;
              v <- rdb s a ;; ret (puttos s 0 v)
  | LDSXM => '(size, s) <- pop s ;; '(i, s) <- pop s ;; a <- get_base s imm8 off ;;
             ret (load_multi s size (u16 (i + a)))
  | STSX => '(v, s) <- pop s ;; '(i, s) <- pop s ;; a <- get_base s imm8 off ;;
            ret (putstack s v (u16 (i + a)))
  | STSXB => '(v, s) <- pop s ;; '(i, s) <- pop s ;; a <- get_base s imm8 off ;;
             ret (wrb s (u16 (i + a)) v)
  | STSXM => '(size, s) <- pop s ;;
             let k := s16 (roundbtoi size) in
             i <- tos s k ;;
             a <- get_base s imm8 off ;;
             s <- store_multi s size (u16 (i + a)) (s16 (k - 1)) ;;
             Ok (discard s (roundbtoi size + 1))
  | LAS => a <- get_base s imm8 off ;; ret (push s a)
  | LASX => i <- tos s 0 ;; a <- get_base s imm8 (off + i) ;; ret (puttos s 0 a)
  | PCAL => procedure_call s imm8
  end.

Definition pexec32 (s : st) (opcode imm8 imm16 : Z) : outcome :=
  match decode_op32 opcode with
  | Some PCAL =>
      match procedure_call s imm8 with
      | Ok s => Ok (with_pc s imm16)
      | Err e s => Err e (with_pc s imm16)
      | r => r
      end
  | Some o => next 4 (exec32 o s imm8 imm16)
  | None => Err eILLEGALOPCODE (with_pc s (u16 (pc s + 4)))
  end.

(** ------------------------------------------------------------------ *)
(** Representation of one p-code, include/pas_machine.h opType_s *)
Record opType := mkOp { op : Z; arg1 : Z; arg2 : Z }.

Definition has8 (o : Z) : bool := Z.testbit o 6.
Definition has16 (o : Z) : bool := Z.testbit o 7.

(** The dispatch of libexec_Execute :1474-1508 on a decoded instruction *)
Definition exec_insn (s : st) (p : opType) : outcome :=
  if has8 (op p) then
    if has16 (op p) then pexec32 s (op p) (arg1 p) (arg2 p)
    else pexec16 s (op p) (arg1 p)
  else if has16 (op p) then pexec24 s (op p) (arg2 p)
  else pexec8 s (op p).

(** Reading the I-space; st->ispace is the allocated program image. *)
Definition ibyte (code : list Z) (a : Z) : option Z :=
  if a <? 0 then None else
  match nth_error code (Z.to_nat a) with Some b => Some (u8 b) | None => None end.

Definition be16 (hi lo : Z) : Z := hi * 256 + lo.

(** Instruction fetch of libexec_Execute :1471-1506 *)
Definition fetch (code : list Z) (p : Z) : option opType :=
  o <-? ibyte code p ;;
  if has8 o then
    i <-? ibyte code (p + 1) ;;
    if has16 o then
      h <-? ibyte code (p + 2) ;; l <-? ibyte code (p + 3) ;; Some (mkOp o i (be16 h l))
    else Some (mkOp o i 0)
  else if has16 o then
    h <-? ibyte code (p + 1) ;; l <-? ibyte code (p + 2) ;; Some (mkOp o 0 (be16 h l))
  else Some (mkOp o 0 0).

(** libexec_Execute :1456-1513 *)
Definition execute (code : list Z) (maxpc : Z) (s : st) : outcome :=
  if maxpc <=? pc s then Err eBADPC s
  else p <- fetch code (pc s) ;; exec_insn s p.

(** libexec_RunLoop (insn16/libexec/libexec_runloop.c): execute until an error
    code (eEXIT on oEND) is returned.  [None] when the fuel is exhausted. *)
Fixpoint run (n : nat) (code : list Z) (maxpc : Z) (s : st) : option outcome :=
  match n with
  | O => None
  | S n' => match execute code maxpc s with
            | Ok s' => run n' code maxpc s'
            | r => Some r
            end
  end.

(** A straight-line run of a window of instructions. *)
Fixpoint exec_list (l : list opType) (s : st) : outcome :=
  match l with
  | [] => Ok s
  | p :: l' => match exec_insn s p with Ok s' => exec_list l' s' | r => r end
  end.

(** Registers hold uint16_t values. *)
Definition wf_regs (s : st) : Prop :=
  0 <= sp s < 65536 /\ 0 <= csp s < 65536 /\ 0 <= fp s < 65536 /\
  0 <= pc s < 65536 /\ 0 <= lsp s < 65536.

Definition wf_cfg (c : cfg) : Prop :=
  0 <= c_ssz c < 65536 /\ c_ssz c mod 2 = 0 /\ 0 <= c_spb c < 65536 /\
  0 <= c_hpb c < 65536 /\ 0 <= c_rop c < 65536 /\ 0 <= c_hpsz c < 65536.
