(** Specification of the 16-bit instructions in terms of integers, independent
    of the interpreter's helper functions.  Only the state's observables (stack
    words, registers) and the opcode numbers are used. *)

From Coq Require Import ZArith List.
From Verif Require Import State Opcodes.
Import ListNotations.
Open Scope Z_scope.

(** [z] is the two's complement reading of the word [w]. *)
Definition signed16 (w z : Z) : Prop :=
  -32768 <= z <= 32767 /\ exists k, w = z + 65536 * k.
(** [r] is the 16-bit word congruent to [z]. *)
Definition word16 (r z : Z) : Prop :=
  0 <= r <= 65535 /\ exists k, r = z + 65536 * k.
(** [r] is Pascal's true (-1) if [P], false (0) otherwise. *)
Definition truth (r : Z) (P : Prop) : Prop := (P /\ r = 65535) \/ (~ P /\ r = 0).
(** [r] is obtained bit by bit. *)
Definition bitwise (f : bool -> bool -> bool) (a b r : Z) : Prop :=
  0 <= r <= 65535 /\ forall i, 0 <= i < 16 -> Z.testbit r i = f (Z.testbit a i) (Z.testbit b i).

(** Truncated division: [x = y * q + m], the remainder is smaller than the
    divisor and does not have the opposite sign of the dividend. *)
Definition truncdiv (x y q m : Z) : Prop :=
  x = y * q + m /\ Z.abs m < Z.abs y /\ 0 <= m * x.

(** Relations on signed operands lifted to words *)
Definition sgn1 (R : Z -> Z -> Prop) (a r : Z) : Prop :=
  exists x, signed16 a x /\ R x r.
Definition sgn2 (R : Z -> Z -> Z -> Prop) (a b r : Z) : Prop :=
  exists x y, signed16 a x /\ signed16 b y /\ R x y r.

Definition any1 (_ : Z) : Prop := True.
Definition any2 (_ _ : Z) : Prop := True.

(** (opcode, required of the operand, relation operand/result) *)
Definition unary_ops : list (Z * (Z -> Prop) * (Z -> Z -> Prop)) :=
  [ (oNEG, any1, sgn1 (fun x r => word16 r (- x)));
    (oABS, any1, sgn1 (fun x r => word16 r (Z.abs x)));
    (oINC, any1, sgn1 (fun x r => word16 r (x + 1)));
    (oDEC, any1, sgn1 (fun x r => word16 r (x - 1)));
    (oNOT, any1, fun a r => bitwise (fun x _ => negb x) a 0 r);
    (oEQUZ, any1, sgn1 (fun x r => truth r (x = 0)));
    (oNEQZ, any1, sgn1 (fun x r => truth r (x <> 0)));
    (oLTZ, any1, sgn1 (fun x r => truth r (x < 0)));
    (oGTEZ, any1, sgn1 (fun x r => truth r (x >= 0)));
    (oGTZ, any1, sgn1 (fun x r => truth r (x > 0)));
    (oLTEZ, any1, sgn1 (fun x r => truth r (x <= 0))) ].

(** (opcode, required of left and right operand, relation left/right/result) *)
Definition binary_ops : list (Z * (Z -> Z -> Prop) * (Z -> Z -> Z -> Prop)) :=
  [ (oADD, any2, sgn2 (fun x y r => word16 r (x + y)));
    (oSUB, any2, sgn2 (fun x y r => word16 r (x - y)));
    (oMUL, any2, sgn2 (fun x y r => word16 r (x * y)));
    (oUMUL, (fun a b => a * b < 2 ^ 31), fun a b r => word16 r (a * b));
    (oDIV, (fun _ b => b <> 0),
       sgn2 (fun x y r => exists q m, truncdiv x y q m /\ word16 r q));
    (oMOD, (fun _ b => b <> 0),
       sgn2 (fun x y r => exists q m, truncdiv x y q m /\ word16 r m));
    (oUDIV, (fun _ b => b <> 0), fun a b r => exists m, a = b * r + m /\ 0 <= m < b);
    (oUMOD, (fun _ b => b <> 0), fun a b r => exists q, a = b * q + r /\ 0 <= r < b);
    (oSLL, (fun _ n => n < 32), fun a n r => word16 r (a * 2 ^ n));
    (oSRL, (fun _ n => n < 32),
       fun a n r => exists m, a = 2 ^ n * r + m /\ 0 <= m < 2 ^ n);
    (oSRA, (fun _ n => n < 32),
       fun a n r => exists x q m, signed16 a x /\ x = 2 ^ n * q + m /\ 0 <= m < 2 ^ n /\ word16 r q);
    (oOR, any2, bitwise orb);
    (oAND, any2, bitwise andb);
    (oXOR, any2, bitwise xorb);
    (oEQU, any2, sgn2 (fun x y r => truth r (x = y)));
    (oNEQ, any2, sgn2 (fun x y r => truth r (x <> y)));
    (oLT, any2, sgn2 (fun x y r => truth r (x < y)));
    (oGTE, any2, sgn2 (fun x y r => truth r (x >= y)));
    (oGT, any2, sgn2 (fun x y r => truth r (x > y)));
    (oLTE, any2, sgn2 (fun x y r => truth r (x <= y)));
    (oULT, any2, fun a b r => truth r (a < b));
    (oUGTE, any2, fun a b r => truth r (a >= b));
    (oUGT, any2, fun a b r => truth r (a > b));
    (oULTE, any2, fun a b r => truth r (a <= b)) ].

(** The registers other than sp and pc are the same, and so is the memory
    map. *)
Definition same_regs (s s' : st) : Prop :=
  cf s' = cf s /\ csp s' = csp s /\ fp s' = fp s /\ lsp s' = lsp s /\ fch s' = fch s.

(** [s'] results from [s] by replacing the [n] topmost stack words with the
    words [res] (pushed in this order); no other word changes. *)
Definition stack_effect (s s' : st) (n : Z) (res : list Z) : Prop :=
  same_regs s s' /\
  sp s' = sp s - 2 * n + 2 * Z.of_nat (length res) /\
  (forall k v, nth_error res k = Some v ->
     rd s' (sp s / 2 - n + 1 + Z.of_nat k) = Some v) /\
  (forall i, ~ (sp s / 2 - n < i <= sp s / 2 - n + Z.of_nat (length res)) ->
     rd s' i = rd s i).

(** The comparisons and the jumps which test the same relation. *)
Definition jump_pairs1 : list (Z * Z) :=
  [ (oEQUZ, oJEQUZ); (oNEQZ, oJNEQZ); (oLTZ, oJLTZ); (oGTEZ, oJGTEZ);
    (oGTZ, oJGTZ); (oLTEZ, oJLTEZ) ].
Definition jump_pairs2 : list (Z * Z) :=
  [ (oEQU, oJEQU); (oNEQ, oJNEQ); (oLT, oJLT); (oGTE, oJGTE); (oGT, oJGT);
    (oLTE, oJLTE); (oULT, oJULT); (oUGTE, oJUGTE); (oUGT, oJUGT); (oULTE, oJULTE) ].

(** ------------------------------------------------------------------ *)
(** Frames.  A frame at address [f] consists of five words: static link,
    dynamic link, return address, string stack pointer, and level (low byte:
    level of this frame, high byte: level of the caller). *)
Definition slink (s : st) (f g : Z) : Prop := rd s (f / 2) = Some g.
Definition frame_level (s : st) (f l : Z) : Prop :=
  exists w k, rd s (f / 2 + 4) = Some w /\ w = 256 * k + l /\ 0 <= l < 256.

(** [g] is [k] static links away from [f]. *)
Inductive reaches (s : st) : Z -> nat -> Z -> Prop :=
| reaches_0 f : reaches s f 0 f
| reaches_S f g h k : slink s f g -> reaches s g k h -> reaches s f (S k) h.

(** A well-formed static chain: the levels decrease until the main program's
    frame of level 0. *)
Inductive static_chain (s : st) : Z -> Z -> Prop :=
| chain_main f : frame_level s f 0 -> static_chain s f 0
| chain_nested f l g m : frame_level s f l -> 0 < l -> slink s f g -> m < l ->
    static_chain s g m -> static_chain s f l.

(** ------------------------------------------------------------------ *)
(** Effective addresses *)

Definition global_ea (s : st) (off idx a : Z) : Prop := word16 a (c_spb (cf s) + off + idx).

(** A non-negative offset designates a local variable, behind the 10 byte frame
    header; a negative one a parameter in front of the frame. *)
Definition frame_ea (s : st) (lvl off idx a : Z) : Prop :=
  exists g z, reaches s (fp s) (Z.to_nat lvl) g /\ signed16 off z /\
    word16 a (if z >=? 0 then g + 10 + z + idx else g + z + idx).

Inductive width := Word | SByte | UByte.

(** The value of the element of the given width at address [a] *)
Definition element (s : st) (w : width) (a v : Z) : Prop :=
  match w with
  | Word => rd s (a / 2) = Some v
  | UByte => rdb s a = Some v
  | SByte => exists b, rdb s a = Some b /\ word16 v (if b <? 128 then b else b - 256)
  end.

Definition indirect_ea (_ : st) (_ _ idx a : Z) : Prop := a = idx.

(** (opcode, size of the instruction, width, operand word for the index?,
    effective address (state, imm8, imm16, index, address)) *)
Definition load_ops : list (Z * Z * width * bool * (st -> Z -> Z -> Z -> Z -> Prop)) :=
  [ (oLD, 3, Word, false, fun s _ imm16 _ a => global_ea s imm16 0 a);
    (oLDB, 3, SByte, false, fun s _ imm16 _ a => global_ea s imm16 0 a);
    (oULDB, 3, UByte, false, fun s _ imm16 _ a => global_ea s imm16 0 a);
    (oLDX, 3, Word, true, fun s _ imm16 idx a => global_ea s imm16 idx a);
    (oLDXB, 3, SByte, true, fun s _ imm16 idx a => global_ea s imm16 idx a);
    (oULDXB, 3, UByte, true, fun s _ imm16 idx a => global_ea s imm16 idx a);
    (oLDS, 4, Word, false, fun s imm8 imm16 _ a => frame_ea s imm8 imm16 0 a);
    (oLDSB, 4, SByte, false, fun s imm8 imm16 _ a => frame_ea s imm8 imm16 0 a);
    (oULDSB, 4, UByte, false, fun s imm8 imm16 _ a => frame_ea s imm8 imm16 0 a);
    (oLDI, 1, Word, true, indirect_ea);
    (oLDIB, 1, SByte, true, indirect_ea);
    (oULDIB, 1, UByte, true, indirect_ea) ].

(** Indexed loads from a frame *)
Definition frame_loadx_ops : list (Z * width) :=
  [ (oLDSX, Word); (oLDSXB, SByte); (oULDSXB, UByte) ].

Definition store_ops : list (Z * Z * bool * bool * (st -> Z -> Z -> Z -> Z -> Prop)) :=
  (* opcode, size, byte store?, index word? *)
  [ (oST, 3, false, false, fun s _ imm16 _ a => global_ea s imm16 0 a);
    (oSTB, 3, true, false, fun s _ imm16 _ a => global_ea s imm16 0 a);
    (oSTX, 3, false, true, fun s _ imm16 idx a => global_ea s imm16 idx a);
    (oSTXB, 3, true, true, fun s _ imm16 idx a => global_ea s imm16 idx a);
    (oSTS, 4, false, false, fun s imm8 imm16 _ a => frame_ea s imm8 imm16 0 a);
    (oSTSB, 4, true, false, fun s imm8 imm16 _ a => frame_ea s imm8 imm16 0 a);
    (oSTSX, 4, false, true, fun s imm8 imm16 idx a => frame_ea s imm8 imm16 idx a);
    (oSTSXB, 4, true, true, fun s imm8 imm16 idx a => frame_ea s imm8 imm16 idx a);
    (oSTI, 1, false, true, indirect_ea);
    (oSTIB, 1, true, true, indirect_ea) ].

(** The element at [a], a word or a byte, holds [v]; no other one changed. *)
Definition only_stored (s s' : st) (byte : bool) (a v : Z) : Prop :=
  if byte
  then rdb s' a = Some (v mod 256) /\ forall b, b <> a -> rdb s' b = rdb s b
  else rd s' (a / 2) = Some v /\ forall i, i <> a / 2 -> rd s' i = rd s i.

(** Room for [n] more words on the data stack *)
Definition room (s : st) (n : Z) : Prop :=
  0 <= sp s /\ sp s + 2 * n < c_ssz (cf s) /\ c_ssz (cf s) <= 65536 /\ c_ssz (cf s) mod 2 = 0.

(** What is required of the target of a store *)
Definition target_ok (s : st) (byte : bool) (a : Z) : Prop :=
  if byte then in_byte s a = true else in_word s (a / 2) = true.


(** [h] is the frame a procedure at nesting level [n]+1 called from frame [f]
    must be linked to: the innermost one at level [n] on the static chain. *)
Definition innermost (s : st) (f n h : Z) : Prop :=
  exists k, reaches s f k h /\ frame_level s h n /\
    forall j g, (j < k)%nat -> reaches s f j g -> ~ frame_level s g n.


(** ------------------------------------------------------------------ *)
(** Multiple loads and stores *)

(** The bytes at [a], ... [a+n-1] of [s] are found at [b], ... in [s']. *)
Definition bytes_copied (s s' : st) (a b n : Z) : Prop :=
  forall j, 0 <= j < n -> rdb s' (b + j) = rdb s (a + j).

Definition disjoint (a n b m : Z) : Prop := a + n <= b \/ b + m <= a.

(** (opcode, length, index word?, effective address); the size lies on the top
    of the stack, the index below *)
Definition loadm_ops : list (Z * Z * bool * (st -> Z -> Z -> Z -> Z -> Prop)) :=
  [ (oLDM, 3, false, fun s _ imm16 _ a => global_ea s imm16 0 a);
    (oLDXM, 3, true, fun s _ imm16 idx a => global_ea s imm16 idx a);
    (oLDSM, 4, false, fun s imm8 imm16 _ a => frame_ea s imm8 imm16 0 a);
    (oLDSXM, 4, true, fun s imm8 imm16 idx a => frame_ea s imm8 imm16 idx a);
    (oLDIM, 1, true, indirect_ea) ].

(** The size lies on the top of the stack, then the words, then the index *)
Definition storem_ops : list (Z * Z * bool * (st -> Z -> Z -> Z -> Z -> Prop)) :=
  [ (oSTM, 3, false, fun s _ imm16 _ a => global_ea s imm16 0 a);
    (oSTXM, 3, true, fun s _ imm16 idx a => global_ea s imm16 idx a);
    (oSTSM, 4, false, fun s imm8 imm16 _ a => frame_ea s imm8 imm16 0 a);
    (oSTSXM, 4, true, fun s imm8 imm16 idx a => frame_ea s imm8 imm16 idx a);
    (oSTIM, 1, true, indirect_ea) ].

Definition words_of (n : Z) : Z := (n + 1) / 2.

(** Instructions which may continue elsewhere than at the next instruction, besides
    call and return *)
Definition jump_codes : list Z :=
  [ oJMP; oJEQUZ; oJNEQZ; oJLTZ; oJGTEZ; oJGTZ; oJLTEZ; oJEQU; oJNEQ; oJLT; oJGTE; oJGT; oJLTE;
    oJULT; oJUGTE; oJUGT; oJULTE ].

(** Indexed stores and the loads of the same element *)
Definition indexed_pairs : list (Z * Z * width) :=
  [ (oSTSX, oLDSX, Word); (oSTSXB, oLDSXB, SByte); (oSTSXB, oULDSXB, UByte) ].

(** What a load returns after the word [v] was stored to an element *)
Definition truncated (w : width) (v r : Z) : Prop :=
  match w with
  | Word => r = v
  | UByte => r = v mod 256
  | SByte => word16 r (if v mod 256 <? 128 then v mod 256 else v mod 256 - 256)
  end.
