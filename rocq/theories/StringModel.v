(** The run-time string library, insn16/libexec/libexec_stringlib.c.
    Definitions only.

    A string variable consists of three words (include/pas_machine.h:130-133):
    size of the string, address of its buffer, size of the buffer.  A string on
    the stack is the same triple, the size of the buffer at the top.

    Not modelled: lbINTSTR, lbWORDSTR, lbLONGSTR, lbULONGSTR, lbREALSTR
    (snprintf) and lbVAL (strtol); see the outcome Ext.  The address of a byte
    outside of dstack is accepted as long as it is not accessed. *)

From Coq Require Import ZArith Bool List.
From Verif Require Import Words State HeapModel.
Import ListNotations.
Open Scope Z_scope.

(** ** Library functions of C on dstack *)

Fixpoint rdbs (n : nat) (s : st) (a : Z) : option (list Z) :=
  match n with
  | O => Some []
  | S n' => v <-? rdb s a ;; l <-? rdbs n' s (a + 1) ;; Some (v :: l)
  end.

Fixpoint wrbs (s : st) (a : Z) (l : list Z) : option st :=
  match l with
  | [] => Some s
  | v :: l' => s <-? wrb s a v ;; wrbs s (a + 1) l'
  end.

(** memcpy; overlapping is undefined *)
Definition memcpy (s : st) (dest src n : Z) : option st :=
  if n <=? 0 then Some s
  else if Z.abs (dest - src) <? n then None
  else l <-? rdbs (Z.to_nat n) s src ;; wrbs s dest l.

(** memcmp: the difference of the first bytes that differ *)
Fixpoint cmp_bytes (l1 l2 : list Z) : Z :=
  match l1, l2 with
  | x :: r1, y :: r2 => if x =? y then cmp_bytes r1 r2 else x - y
  | _, _ => 0
  end.

Definition memcmp (s : st) (a b n : Z) : option Z :=
  l1 <-? rdbs (Z.to_nat n) s a ;; l2 <-? rdbs (Z.to_nat n) s b ;; Some (cmp_bytes l1 l2).

(** The C string at an address *)
Fixpoint cstr (n : nat) (s : st) (a : Z) : option (list Z) :=
  match n with
  | O => None
  | S n' => v <-? rdb s a ;; if v =? 0 then Some [] else l <-? cstr n' s (a + 1) ;; Some (v :: l)
  end.

Definition cstr_bound : nat := Z.to_nat 65537.

(** strnlen *)
Fixpoint strnlen (n : nat) (s : st) (a : Z) : option Z :=
  match n with
  | O => Some 0
  | S n' => v <-? rdb s a ;; if v =? 0 then Some 0 else k <-? strnlen n' s (a + 1) ;; Some (1 + k)
  end.

(** strstr: the offset of the first occurrence *)
Fixpoint is_prefix (l1 l2 : list Z) : bool :=
  match l1, l2 with
  | [], _ => true
  | x :: r1, y :: r2 => (x =? y) && is_prefix r1 r2
  | _ :: _, [] => false
  end.

Fixpoint strstr (hay needle : list Z) : option Z :=
  if is_prefix needle hay then Some 0
  else match hay with
       | [] => None
       | _ :: r => match strstr r needle with Some k => Some (1 + k) | None => None end
       end.

(** ** Private functions *)

(** INT_ALIGNUP, include/pas_machine.h *)
Definition int_alignup (x : Z) : Z := (x + 1) / 2 * 2.

Definition SIZE_OFF : Z := 0.
Definition DATA_OFF : Z := 2.
Definition ALLOC_OFF : Z := 4.

(** :89-118 libexec_StrInit *)
Definition str_init (s : st) (var size : Z) : outcome :=
  let addr := u16 (int_alignup (csp s)) in
  if c_spb (cf s) <=? csp s + size then Err eSTRSTKOVERFLOW s
  else
    let s := with_csp s (u16 (addr + size)) in
    s <- putstack s addr (var + DATA_OFF) ;;
    s <- putstack s 0 (var + SIZE_OFF) ;; Ok s.

(** :120-176 libexec_StrCpy *)
Definition str_cpy (s : st) (src size var off : Z) : option st :=
  let var := u16 (var + off) in
  match hget s var (ALLOC_OFF / 2) with
  | HV alloc =>
    let cap := Z.land alloc HEAP_SIZE_MASK in
    dest <-? getstack s (var + DATA_OFF) ;;
    if dest =? src then Some s
    else
      let size := if cap <? size then cap else size in
      s <-? memcpy s dest src size ;;
      putstack s size (var + SIZE_OFF)
  | _ => None
  end.

(** :234-263 libexec_Str2BStr: the clipped length is not used *)
Definition str2bstr (s : st) (array asize buf size off : Z) : option st :=
  memcpy s (array + off) buf size.

(** :178-232 libexec_BStr2Str; [sbs] is STRING_BUFFER_SIZE *)
Definition bstr2str (sbs : Z) (s : st) (array asize : Z) : outcome :=
  len <- strnlen (Z.to_nat asize) s array ;;
  let len := if sbs <? len then sbs else len in
  hout (alloc_tmp s sbs) (fun '(s, addr, al) =>
    if addr =? 0 then Err eNOMEMORY s
    else
      s <- memcpy s addr array len ;;
      s <- push s len ;; s <- push s addr ;; s <- push s al ;; Ok s).

(** :265-311 libexec_StrDup; the clone replaces the string at the top of the
    stack *)
Definition str_dup (sbs : Z) (s : st) (addr size : Z) : outcome :=
  hout (alloc_tmp s sbs) (fun '(s, clone, al) =>
    if clone =? 0 then Err eNOMEMORY s
    else
      let size := if sbs <? size then sbs else size in
      s <- memcpy s clone addr size ;;
      s <- puttos s 2 size ;; s <- puttos s 1 clone ;; s <- puttos s 0 al ;; Ok s).

(** :313-344 libexec_StrCat; the size of the destination is at TOS(2) *)
Definition str_cat (s : st) (src size dest cap : Z) : option st :=
  dsize <-? tos s 2 ;;
  if cap <? size + dsize then Some s
  else
    s <-? memcpy s (dest + dsize) src size ;; puttos s 2 (size + dsize).

(** :346-373 libexec_StrCatC *)
Definition str_catc (s : st) (ch dest cap : Z) : outcome :=
  dsize <- tos s 2 ;;
  if cap <? dsize + 1 then Err eSTRSTKOVERFLOW s
  else
    s <- wrb s (dest + dsize) ch ;; s <- puttos s 2 (dsize + 1) ;; Ok s.

(** :375-420 libexec_FillChar *)
Definition fill_char (s : st) (var count value : Z) : hr st :=
  al <~ hget s var 2 ;; addr <~ hget s var 1 ;; size <~ hget s var 0 ;;
  let cap := Z.land al HEAP_SIZE_MASK in
  let limit := if cap <? count then cap else count in
  s <~ hopt (wrbs s (addr + size) (repeat (u8 value) (Z.to_nat (limit - size)))) ;;
  hput s var 0 (if size <? limit then limit else size).

(** :1683-1714 libexec_MkCString: the address of the copy, NULL is -1 *)
Definition mk_cstring (s : st) (src size : Z) (keep : bool) : option (st * Z) :=
  if c_spb (cf s) <=? csp s + size + 1 then Some (s, NULL)
  else
    let dest := csp s in
    let s := if keep then with_csp s (u16 (csp s + size + 1)) else s in
    s <-? memcpy s dest src size ;;
    s <-? wrb s (dest + size) 0 ;; Some (s, dest).

(** ** Operations *)

Definition lbSTRCPY := 0x00. Definition lbSTRCPY2 := 0x01. Definition lbSTRCPYX := 0x02.
Definition lbSTRCPYX2 := 0x03. Definition lbBSTR2STR := 0x04. Definition lbSTR2BSTR := 0x05.
Definition lbSTR2BSTRX := 0x06. Definition lbSTRINIT := 0x07. Definition lbSTRTMP := 0x08.
Definition lbSTRDUP := 0x09. Definition lbMKSTKC := 0x0a. Definition lbSTRCAT := 0x0b.
Definition lbSTRCATC := 0x0c. Definition lbSTRCMP := 0x0d. Definition lbSTRLEN := 0x0e.
Definition lbCOPYSUBSTR := 0x0f. Definition lbFINDSUBSTR := 0x10. Definition lbINSERTSTR := 0x11.
Definition lbDELSUBSTR := 0x12. Definition lbFILLCHAR := 0x13. Definition lbCHARAT := 0x14.
Definition lbVAL := 0x1a.

(** A temporary string was consumed; the result is ignored *)
Definition consume (s : st) (addr al : Z) (k : st -> outcome) : outcome :=
  hout (free_tmp s addr al) (fun '(s, _) => k s).

(** :456-487 lbSTRCPY2, lbSTRCPY *)
Definition op_strcpy (two : bool) (s : st) : outcome :=
  if two then
    '(al, s) <- pop s ;; '(src, s) <- pop s ;; '(size, s) <- pop s ;; '(var, s) <- pop s ;;
    s <- str_cpy s src size var 0 ;; consume s src al Ok
  else
    '(var, s) <- pop s ;; '(al, s) <- pop s ;; '(src, s) <- pop s ;; '(size, s) <- pop s ;;
    s <- str_cpy s src size var 0 ;; consume s src al Ok.

(** :504-537 lbSTRCPYX2, lbSTRCPYX *)
Definition op_strcpyx (two : bool) (s : st) : outcome :=
  if two then
    '(al, s) <- pop s ;; '(src, s) <- pop s ;; '(size, s) <- pop s ;; '(off, s) <- pop s ;; '(var, s) <- pop s ;;
    s <- str_cpy s src size var off ;; consume s src al Ok
  else
    '(var, s) <- pop s ;; '(al, s) <- pop s ;; '(src, s) <- pop s ;; '(size, s) <- pop s ;; '(off, s) <- pop s ;;
    s <- str_cpy s src size var off ;; consume s src al Ok.

(** :583-611, 632-663 lbSTR2BSTR, lbSTR2BSTRX *)
Definition op_str2bstr (x : bool) (s : st) : outcome :=
  '(array, s) <- pop s ;; '(asize, s) <- pop s ;;
  '(al, s) <- pop s ;; '(buf, s) <- pop s ;; '(size, s) <- pop s ;;
  if x then
    '(off, s) <- pop s ;; s <- str2bstr s array asize buf size off ;; consume s buf al Ok
  else
    s <- str2bstr s array asize buf size 0 ;; consume s buf al Ok.

(** :678-693 lbSTRINIT: the allocated size is saved even after an error *)
Definition op_strinit (s : st) : outcome :=
  '(var, s) <- pop s ;; '(size, s) <- pop s ;;
  let size := u16 (int_alignup size) in
  match str_init s var size with
  | Ok s => s <- putstack s size (var + ALLOC_OFF) ;; Ok s
  | Err e s => s <- putstack s size (var + ALLOC_OFF) ;; Err e s
  | o => o
  end.

(** :710-731 lbSTRTMP *)
Definition op_strtmp (sbs : Z) (s : st) : outcome :=
  hout (alloc_tmp s sbs) (fun '(s, addr, al) =>
    if addr =? 0 then Err eNOMEMORY s
    else s <- push s 0 ;; s <- push s addr ;; s <- push s al ;; Ok s).

(** :748-772 lbSTRDUP: the original is freed even after an error *)
Definition op_strdup (sbs : Z) (s : st) : outcome :=
  al <- tos s 0 ;; addr <- tos s 1 ;; size <- tos s 2 ;;
  match str_dup sbs s addr size with
  | Ok s => consume s addr al Ok
  | Err e s => consume s addr al (Err e)
  | o => o
  end.

(** :786-812 lbMKSTKC *)
Definition op_mkstkc (sbs : Z) (s : st) : outcome :=
  hout (alloc_tmp s sbs) (fun '(s, addr, al) =>
    if addr =? 0 then Err eNOMEMORY s
    else
      c <- tos s 0 ;; s <- wrb s addr c ;;
      s <- puttos s 0 1 ;; s <- push s addr ;; s <- push s al ;; Ok s).

(** :831-858 lbSTRCAT *)
Definition op_strcat (s : st) : outcome :=
  '(al, s) <- pop s ;; '(src, s) <- pop s ;; '(size, s) <- pop s ;;
  dal <- tos s 0 ;; dest <- tos s 1 ;;
  s <- str_cat s src size dest (Z.land dal HEAP_SIZE_MASK) ;;
  consume s src al Ok.

(** :875-888 lbSTRCATC *)
Definition op_strcatc (s : st) : outcome :=
  '(ch, s) <- pop s ;; dal <- tos s 0 ;; dest <- tos s 1 ;; str_catc s ch dest dal.

(** :905-977 lbSTRCMP *)
Definition op_strcmp (s : st) : outcome :=
  '(al2, s) <- pop s ;; '(a2, s) <- pop s ;; '(n2, s) <- pop s ;;
  '(al1, s) <- pop s ;; '(a1, s) <- pop s ;; n1 <- tos s 0 ;;
  r <- (if n1 <? n2 then r <-? memcmp s a1 a2 n1 ;; Some (if r =? 0 then -1 else r)
        else if n2 <? n1 then r <-? memcmp s a1 a2 n2 ;; Some (if r =? 0 then 1 else r)
        else memcmp s a1 a2 n1) ;;
  consume s a1 al1 (fun s => consume s a2 al2 (fun s => s <- puttos s 0 r ;; Ok s)).

(** :991-1009 lbSTRLEN *)
Definition op_strlen (s : st) : outcome :=
  '(al, s) <- pop s ;; '(addr, s) <- pop s ;; consume s addr al Ok.

(** :1028-1095 lbCOPYSUBSTR: the source is not freed *)
Definition op_copysubstr (s : st) : outcome :=
  '(n, s) <- pop s ;; '(pos, s) <- pop s ;;
  al <- tos s 0 ;; addr <- tos s 1 ;; size <- tos s 2 ;;
  hout (alloc_tmp s (Z.land al HEAP_SIZE_MASK)) (fun '(s, sub, sal) =>
    if sub =? 0 then Err eNOMEMORY s
    else
      s <- puttos s 0 sal ;; s <- puttos s 1 sub ;; s <- puttos s 2 0 ;;
      if (1 <=? pos) && (pos <=? size) && (0 <? n) then
        let pos := pos - 1 in
        let n := if al <? n then al else n in
        let n := if size <? pos + n then size - pos else n in
        s <- memcpy s sub (addr + pos) n ;; s <- puttos s 2 n ;; Ok s
      else Ok s).

(** :1115-1185 lbFINDSUBSTR *)
Definition op_findsubstr (s : st) : outcome :=
  '(pos, s) <- pop s ;;
  '(al, s) <- pop s ;; '(addr, s) <- pop s ;; '(size, s) <- pop s ;;
  '(sal, s) <- pop s ;; '(saddr, s) <- pop s ;; '(ssize, s) <- pop s ;;
  let save := csp s in
  '(s, c) <- mk_cstring s addr size true ;;
  '(s, d) <- mk_cstring s saddr ssize false ;;
  '(off, e) <-
    (if pos <? 1 then Some (0, eVALUERANGE)
     else if (c =? NULL) || (d =? NULL) then Some (0, eNOMEMORY)
     else h <-? cstr cstr_bound s (c + pos - 1) ;; n <-? cstr cstr_bound s d ;;
          Some (match strstr h n with Some k => pos + k | None => 0 end, eNOERROR)) ;;
  let s := with_csp s save in
  s <- push s off ;;
  consume s addr al (fun s => consume s saddr sal (fun s => if e =? eNOERROR then Ok s else Err e s)).

(** :1200-1283 lbINSERTSTR; the loops count down and up, [k] iterations *)
Fixpoint move_down (k : nat) (s : st) (base i j : Z) : option st :=
  match k with
  | O => Some s
  | S k' => v <-? rdb s (base + i) ;; s <-? wrb s (base + j) v ;; move_down k' s base (i - 1) (j - 1)
  end.

Fixpoint copy_up (k : nat) (s : st) (src dest i j : Z) : option st :=
  match k with
  | O => Some s
  | S k' => v <-? rdb s (src + i) ;; s <-? wrb s (dest + j) v ;; copy_up k' s src dest (i + 1) (j + 1)
  end.

Definition op_insertstr (s : st) : outcome :=
  '(pos, s) <- pop s ;; '(var, s) <- pop s ;;
  hout (al <~ hget s var 2 ;; dest <~ hget s var 1 ;; dsize <~ hget s var 0 ;; HV (al, dest, dsize))
    (fun '(al, dest, dsize) =>
  let cap := Z.land al HEAP_SIZE_MASK in
  '(sal, s) <- pop s ;; '(src, s) <- pop s ;; '(size, s) <- pop s ;;
  let p := u16 (pos - 1) in
  let total := u16 (dsize + size) in
  let total := if cap <? total then cap else total in
  s <- move_down (Z.to_nat (total - size - p)) s dest (total - size - 1) (total - 1) ;;
  let stop := u16 (size + p) in
  let stop := if total <? stop then total else stop in
  s <- copy_up (Z.to_nat (stop - p)) s src dest 0 p ;;
  hout (hput s var 0 total) (fun s => consume s src sal Ok)).

(** :1296-1342 lbDELSUBSTR *)
Definition op_delsubstr (s : st) : outcome :=
  '(n, s) <- pop s ;; '(pos, s) <- pop s ;; '(var, s) <- pop s ;;
  hout (addr <~ hget s var 1 ;; size <~ hget s var 0 ;; HV (addr, size)) (fun '(addr, size) =>
  let p := u16 (pos - 1) in
  s <- copy_up (Z.to_nat (size - (p + n))) s addr addr (p + n) p ;;
  let n := if size <? p + n then u16 (size - p) else n in
  hout (w <~ hget s var 0 ;; hput s var 0 (w - n)) Ok).

(** :1355-1374 lbFILLCHAR *)
Definition op_fillchar (s : st) : outcome :=
  '(c, s) <- pop s ;; '(count, s) <- pop s ;; '(var, s) <- pop s ;;
  hout (fill_char s var count c) Ok.

(** :1389-1420 lbCHARAT; char is signed *)
Definition op_charat (s : st) : outcome :=
  '(pos, s) <- pop s ;; '(al, s) <- pop s ;; '(addr, s) <- pop s ;; '(size, s) <- pop s ;;
  c <- (if (0 <? pos) && (pos <=? size) then v <-? rdb s (addr + pos - 1) ;; Some (u16 (s8 v)) else Some 0) ;;
  s <- push s c ;; consume s addr al Ok.

(** :430-1676 libexec_StringOperations *)
Definition string_op (sbs : Z) (s : st) (f : Z) : outcome :=
  if f =? lbSTRCPY then op_strcpy false s
  else if f =? lbSTRCPY2 then op_strcpy true s
  else if f =? lbSTRCPYX then op_strcpyx false s
  else if f =? lbSTRCPYX2 then op_strcpyx true s
  else if f =? lbBSTR2STR then '(array, s) <- pop s ;; '(asize, s) <- pop s ;; bstr2str sbs s array asize
  else if f =? lbSTR2BSTR then op_str2bstr false s
  else if f =? lbSTR2BSTRX then op_str2bstr true s
  else if f =? lbSTRINIT then op_strinit s
  else if f =? lbSTRTMP then op_strtmp sbs s
  else if f =? lbSTRDUP then op_strdup sbs s
  else if f =? lbMKSTKC then op_mkstkc sbs s
  else if f =? lbSTRCAT then op_strcat s
  else if f =? lbSTRCATC then op_strcatc s
  else if f =? lbSTRCMP then op_strcmp s
  else if f =? lbSTRLEN then op_strlen s
  else if f =? lbCOPYSUBSTR then op_copysubstr s
  else if f =? lbFINDSUBSTR then op_findsubstr s
  else if f =? lbINSERTSTR then op_insertstr s
  else if f =? lbDELSUBSTR then op_delsubstr s
  else if f =? lbFILLCHAR then op_fillchar s
  else if f =? lbCHARAT then op_charat s
  else if (lbCHARAT <? f) && (f <=? lbVAL) then Ext
  else Err eBADSYSLIBCALL s.
