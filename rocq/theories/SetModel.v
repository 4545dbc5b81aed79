(** insn16/libexec/libexec_setops.c.  Definitions only. *)

From Coq Require Import ZArith Bool List.
From Verif Require Import Words State.
Import ListNotations.
Open Scope Z_scope.

(** Sub-function codes, include/pas_setops.h. *)
Inductive setop :=
| setEMPTY | setINTERSECTION | setUNION | setDIFFERENCE | setSYMMETRICDIFF
| setEQUALITY | setNONEQUALITY | setCONTAINS | setMEMBER | setINCLUDE
| setEXCLUDE | setCARD | setSINGLETON | setSUBRANGE.

Definition decode_set (imm8 : Z) : option setop :=
  match imm8 with
  | 0x01 => Some setEMPTY | 0x02 => Some setINTERSECTION | 0x03 => Some setUNION
  | 0x04 => Some setDIFFERENCE | 0x05 => Some setSYMMETRICDIFF
  | 0x06 => Some setEQUALITY | 0x07 => Some setNONEQUALITY
  | 0x08 => Some setCONTAINS | 0x09 => Some setMEMBER | 0x0a => Some setINCLUDE
  | 0x0b => Some setEXCLUDE | 0x0c => Some setCARD | 0x0d => Some setSINGLETON
  | 0x0e => Some setSUBRANGE | _ => None
  end.

(** Word operators; operands are uint16_t promoted to int.
    :109-143 [dest[k] op= src[k]]. *)
Definition w_and (d x : Z) : Z := u16 (Z.land d x).
Definition w_or  (d x : Z) : Z := u16 (Z.lor d x).
Definition w_andnot (d x : Z) : Z := u16 (Z.land d (Z.lnot x)).
Definition w_xor (d x : Z) : Z := u16 (Z.lxor d x).

(** The four assignments dest[0] op= src[0]; ... dest[3] op= src[3] with
    [di], [si] the word indices of dest and src. :109-143 *)
Definition words4 (f : Z -> Z -> Z) (s : st) (di si : Z) : option st :=
  d0 <-? rd s di ;; x0 <-? rd s si ;; s <-? wr s di (f d0 x0) ;;
  d1 <-? rd s (di + 1) ;; x1 <-? rd s (si + 1) ;; s <-? wr s (di + 1) (f d1 x1) ;;
  d2 <-? rd s (di + 2) ;; x2 <-? rd s (si + 2) ;; s <-? wr s (di + 2) (f d2 x2) ;;
  d3 <-? rd s (di + 3) ;; x3 <-? rd s (si + 3) ;; wr s (di + 3) (f d3 x3).

(** setINTERSECTION .. setSYMMETRICDIFF, :407-433 *)
Definition set_binary (f : Z -> Z -> Z) (s : st) : outcome :=
  s <- words4 f s (sp s / 2 - 7) (sp s / 2 - 3) ;;
  Ok (discard s 4).

(** Reading four words from index i; the && chains of :145-194 stop at the
    first difference, which cannot be observed because all eight words lie in a
    contiguous block whose ends are accessed anyway (dest is written). *)
Definition rd4 (s : st) (i : Z) : option (Z * Z * Z * Z) :=
  a <-? rd s i ;; b <-? rd s (i + 1) ;; c <-? rd s (i + 2) ;; d <-? rd s (i + 3) ;;
  Some (a, b, c, d).

Definition eq4 (x y : Z * Z * Z * Z) : bool :=
  let '(x0, x1, x2, x3) := x in let '(y0, y1, y2, y3) := y in
  (x0 =? y0) && (x1 =? y1) && (x2 =? y2) && (x3 =? y3).

(** libexec_contains :179-194 on src1, src2 *)
Definition contains4 (x y : Z * Z * Z * Z) : bool :=
  let '(x0, x1, x2, x3) := x in let '(y0, y1, y2, y3) := y in
  (Z.land x0 y0 =? y0) && (Z.land x1 y1 =? y1) &&
  (Z.land x2 y2 =? y2) && (Z.land x3 y3 =? y3).

(** setEQUALITY, setNONEQUALITY, setCONTAINS, :444-466.  src1 is the set on
    the top (Set2), src2 the set below (Set1). *)
Definition set_compare (r : Z * Z * Z * Z -> Z * Z * Z * Z -> bool) (s : st) : outcome :=
  x <- rd4 s (sp s / 2 - 3) ;;
  y <- rd4 s (sp s / 2 - 7) ;;
  s <- puttos s 7 (pbool (r x y)) ;;
  Ok (discard s 7).

(** setMEMBER :479-487 and libexec_member :196-215.  The range check is
    [member > 8 * sSET_SIZE]. *)
Definition set_member (s : st) : outcome :=
  off <- tos s 0 ;;
  m1 <- tos s 5 ;;
  let member := s16 (s16 m1 - s16 off) in
  if (member <? 0) || (64 <? member)
  then Err eVALUERANGE (discard s 5)
  else w <- rd s (sp s / 2 - 4 + member / 16) ;;
       s <- puttos s 5 (pbool (negb (Z.land w (Z.shiftl 1 (member mod 16)) =? 0))) ;;
       Ok (discard s 5).

(** setINCLUDE :498-502, libexec_include :217-224.  [wordIndex] is the
    uint16_t conversion of member >> 4; there is no range check. *)
Definition set_include (s : st) : outcome :=
  '(m, s) <- pop s ;;
  let member := s16 m in
  let i := sp s / 2 - 3 + u16 (member / 16) in
  w <- rd s i ;;
  ret (wr s i (Z.lor w (Z.shiftl 1 (member mod 16)))).

(** setEXCLUDE :504-508, libexec_exclude :226-233 *)
Definition set_exclude (s : st) : outcome :=
  '(m, s) <- pop s ;;
  let member := s16 m in
  let i := sp s / 2 - 3 + u16 (member / 16) in
  w <- rd s i ;;
  ret (wr s i (Z.land w (Z.lnot (Z.shiftl 1 (member mod 16))))).

(** g_bitsInNibble :99-103 *)
Definition bits_in_nibble (n : Z) : Z :=
  nth (Z.to_nat (n mod 16)) [0; 1; 1; 2; 1; 2; 2; 3; 1; 2; 2; 3; 2; 3; 3; 4] 0.
(** :354-357 *)
Definition bits_in_byte (b : Z) : Z := bits_in_nibble (b / 16) + bits_in_nibble (b mod 16).
(** :349-352 *)
Definition bits_in_word (w : Z) : Z := bits_in_byte (w / 256) + bits_in_byte (w mod 256).

(** setCARD :519-524, libexec_card :235-240 *)
Definition set_card (s : st) : outcome :=
  x <- rd4 s (sp s / 2 - 3) ;;
  let '(a, b, c, d) := x in
  s <- puttos s 3 (bits_in_word a + bits_in_word b + bits_in_word c + bits_in_word d) ;;
  Ok (discard s 3).

(** dest[0..3] = 0; :248-251, :279-282 *)
Definition zero4 (s : st) (i : Z) : option st :=
  s <-? wr s i 0 ;; s <-? wr s (i + 1) 0 ;; s <-? wr s (i + 2) 0 ;; wr s (i + 3) 0.

(** setSINGLETON :535-541, libexec_singleton :242-267 *)
Definition set_singleton (s : st) : outcome :=
  '(minv, s) <- pop s ;;
  '(m1, s) <- pop s ;;
  let s := with_sp s (u16 (sp s + 8)) in
  let d := sp s / 2 - 3 in
  s <- zero4 s d ;;
  let member := s16 (s16 m1 - s16 minv) in
  if (member <? 0) || (64 <=? member) then Err eVALUERANGE s
  else w <- rd s (d + member / 16) ;;
       ret (wr s (d + member / 16) (Z.lor w (Z.shiftl 1 (member mod 16)))).

(** The word loop of libexec_subrange :322-341.  [n] bounds the number of
    iterations: wordIndex grows by one in each, so that the loop leaves the
    data stack (undefined behaviour) before the bound is reached. *)
Fixpoint subrange_loop (n : nat) (s : st) (d wordIndex bitMask bitsInWord nBits
                        tailBits tailMask : Z) : outcome :=
  if 0 <? nBits then
    match n with
    | O => Hang
    | S n' =>
      s <- wr s (d + wordIndex) bitMask ;;
      let nBits := nBits - bitsInWord in
      if 16 <=? nBits
      then subrange_loop n' s d (wordIndex + 1) 0xffff 16 nBits tailBits tailMask
      else if 0 <? nBits
      then subrange_loop n' s d (wordIndex + 1) tailMask bitsInWord tailBits tailBits tailMask
      else subrange_loop n' s d (wordIndex + 1) bitMask bitsInWord nBits tailBits tailMask
    end
  else Ok s.

Definition subrange_bound : nat := Z.to_nat 65536.

(** setSUBRANGE :553-560, libexec_subrange :269-347 *)
Definition set_subrange (s : st) : outcome :=
  '(minv, s) <- pop s ;;
  '(m2, s) <- pop s ;;
  '(m1, s) <- pop s ;;
  let s := with_sp s (u16 (sp s + 8)) in
  let d := sp s / 2 - 3 in
  s <- zero4 s d ;;
  let member2 := s16 (s16 m2 - s16 minv) in
  if (member2 <? 0) || (64 <=? member2) then Err eVALUERANGE s else
  let member1 := s16 (s16 m1 - s16 minv) in
  if (member1 <? 0) || (member2 <? member1) then Err eVALUERANGE s else
  let leadMask := u16 (Z.shiftl 0xffff (member1 mod 16)) in
  let tailMask := u16 (Z.shiftr 0xffff (15 - member2 mod 16)) in
  let wordIndex := member1 / 16 in
  if wordIndex =? member2 / 16
  then ret (wr s (d + wordIndex) (Z.land leadMask tailMask))
  else subrange_loop subrange_bound s d wordIndex leadMask (16 - member1)
                     (member2 - member1 + 1) (member2 mod 16 + 1) tailMask.

(** setEMPTY :391-396 *)
Definition set_empty (s : st) : outcome :=
  s <- push s 0 ;; s <- push s 0 ;; s <- push s 0 ;; ret (push s 0).

(** libexec_SetOperations :376-567 *)
Definition set_operation (s : st) (imm8 : Z) : outcome :=
  match decode_set imm8 with
  | Some setEMPTY => set_empty s
  | Some setINTERSECTION => set_binary w_and s
  | Some setUNION => set_binary w_or s
  | Some setDIFFERENCE => set_binary w_andnot s
  | Some setSYMMETRICDIFF => set_binary w_xor s
  | Some setEQUALITY => set_compare eq4 s
  | Some setNONEQUALITY => set_compare (fun x y => negb (eq4 x y)) s
  | Some setCONTAINS => set_compare contains4 s
  | Some setMEMBER => set_member s
  | Some setINCLUDE => set_include s
  | Some setEXCLUDE => set_exclude s
  | Some setCARD => set_card s
  | Some setSINGLETON => set_singleton s
  | Some setSUBRANGE => set_subrange s
  | None => Err eBADSETOPCODE s
  end.
